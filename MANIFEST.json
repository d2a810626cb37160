{
 "claims": [
  {
   "property": "C01",
   "status": "proved",
   "theorems": [
    "C01_uvarint_roundtrip",
    "C01_varint_roundtrip",
    "C01_fixed_roundtrip",
    "C01_link_roundtrip",
    "C01_truncated_is_error"
   ],
   "note": "All codecs used on disk, both decoders, any suffix."
  },
  {
   "property": "C02",
   "status": "proved",
   "theorems": [
    "C02_post_keeps_both",
    "C02_posts_distinct",
    "C02_every_post_is_made"
   ],
   "note": "Both directions and injectivity."
  },
  {
   "property": "C03",
   "status": "proved",
   "theorems": [
    "C03_join_after_split",
    "C03_split_after_join",
    "C03_bound_is_sharp"
   ],
   "note": "All shard counts 1..65535 and all blots; the bound is shown sharp (65536 shards panic)."
  },
  {
   "property": "C04",
   "status": "proved",
   "theorems": [
    "C04_writer_and_reader_agree",
    "C04_reduced_blot_same_place",
    "C04_same_place_iff_congruent",
    "C04_reported_blot"
   ],
   "note": "Writer (shatter.blot, Serve) and reader (Get) compute the same place; same place iff congruent mod NumShards*65536; the blot reported by Next is the residue."
  },
  {
   "property": "C05",
   "status": "proved",
   "theorems": [
    "C05_docids_consecutive"
   ],
   "note": "Any sequence of create/append sessions with flush rate >= 1 and fewer than 2^32-1 documents."
  },
  {
   "property": "C06",
   "status": "proved",
   "theorems": [
    "C06_lookup_beyond_is_error"
   ],
   "note": "Lookup beyond the last id is io.EOF."
  },
  {
   "property": "C07",
   "status": "partial",
   "theorems": [
    "C07_num_docs_refuted",
    "C07_num_docs_partial"
   ],
   "note": "REFUTED: the record reserved for document id 0 is counted, so NumDocs is one too many for every history; proved that it is exactly documents+1."
  },
  {
   "property": "C08",
   "status": "proved",
   "theorems": [
    "C08_paths_read_back"
   ],
   "note": "All histories of additions and reloads, each addition in any working directory; room bound because ids are uint32."
  },
  {
   "property": "C09",
   "status": "proved",
   "theorems": [
    "C09_ids_identify_paths"
   ],
   "note": "Ids equal iff cleaned paths equal; re-adding changes nothing; old ids keep their paths."
  },
  {
   "property": "C10",
   "status": "proved",
   "theorems": [
    "C10_reload_is_invisible"
   ],
   "note": "Reload succeeds on every reachable set and no later history can distinguish it."
  },
  {
   "property": "C11",
   "status": "proved",
   "theorems": [
    "C11_posting_list_reads_back"
   ],
   "note": "All post sequences, all slots, any number of append sessions; the only hypothesis is that per-slot counts fit uint32 (as they do for fewer than 2^32 documents); file size < 2^63 is derived."
  },
  {
   "property": "C12",
   "status": "proved",
   "theorems": [
    "C12_blots_do_not_interfere"
   ],
   "note": "Non-interference as a two-run statement."
  },
  {
   "property": "C13",
   "status": "proved",
   "theorems": [
    "C13_no_decode_error",
    "C13_chunks_fit_reader"
   ],
   "note": "Any number of Next calls succeed or give EOF; InitAppend succeeds; chunk size bound."
  },
  {
   "property": "C14",
   "status": "proved",
   "theorems": [
    "C14_table_roundtrip"
   ],
   "note": "All tables, reader and appender."
  },
  {
   "property": "C15",
   "status": "partial",
   "theorems": [
    "C15_tokens_partition_partial",
    "C15_tokens_spell_refuted"
   ],
   "note": "REFUTED: no non-empty document is spelled by its tokens, the last character is always lost; everything else proved (tokens spell the text without its last character, non-empty, alternating, positions, classes)."
  },
  {
   "property": "C16",
   "status": "proved",
   "theorems": [
    "C16_invalid_utf8_contributes_nothing"
   ],
   "note": "All byte strings that are not UTF-8; tokenizer, worker (blotter unchanged) and BlotDoc."
  },
  {
   "property": "C17",
   "status": "proved",
   "theorems": [
    "C17_blot_is_xor_of_recent_words",
    "C17_word_hash",
    "C17_window_only"
   ],
   "note": "All word sequences, interleavings and lengths >= 1, and independence of what came before the window."
  },
  {
   "property": "C18",
   "status": "proved",
   "theorems": [
    "C18_case_and_order"
   ],
   "note": "Any permutation and any change of letter case (Unicode tables are a parameter)."
  },
  {
   "property": "C19",
   "status": "proved",
   "theorems": [
    "C19_posts_depend_on_document_only",
    "C19_words_exist"
   ],
   "note": "Any list of jobs of a worker; the batches are a function of document id and words."
  },
  {
   "property": "C20",
   "status": "proved",
   "theorems": [
    "C20_blot_doc_is_what_is_indexed",
    "C20_blot_doc",
    "C20_sessions"
   ],
   "note": "After any jobs of the worker; equality of blots modulo NumShards*65536 with the places filed under."
  },
  {
   "property": "C21",
   "status": "partial",
   "theorems": [
    "C21_copied_text_partial",
    "C21_all_words",
    "C21_short_documents_have_no_blots",
    "C21_copied_text_refuted",
    "C21_copied_text_is_found_partial"
   ],
   "note": "REFUTED for a run at the start of a document (first full window is never indexed); proved, up to the answers of Query.Get after any history, when at least one word precedes the run in both."
  },
  {
   "property": "C22",
   "status": "proved",
   "theorems": [
    "C22_posts_in_order"
   ],
   "note": "All interleavings of caller, workers, sender goroutines and servers; any number of workers, shards and documents; prefix in every reachable state, everything once Close closes the channels."
  },
  {
   "property": "C23",
   "status": "proved",
   "theorems": [
    "C23_schedule_does_not_matter"
   ],
   "note": "Every reachable state in which Close closes the channels; same shards as one worker after another."
  },
  {
   "property": "C24",
   "status": "proved",
   "theorems": [
    "C24_no_deadlock",
    "C24_completes"
   ],
   "note": "Step bound, progress until final, no send on a closed channel; complete executions exist."
  },
  {
   "property": "C25",
   "status": "partial",
   "theorems": [
    "C25_concurrent_add_refuted"
   ],
   "note": "REFUTED for every configuration: two callers, one of which has NumShatters documents, can block all workers (ids handed out before the rendezvous). One caller: C24."
  },
  {
   "property": "C26",
   "status": "proved",
   "theorems": [
    "C26_query_is_exact",
    "C26_histories_exist",
    "C26_opened",
    "C26_ids_agree",
    "C26_sorting_exists"
   ],
   "note": "Any sequence of create/append sessions, any schedule, any configuration NewConfig can make with < 65536 shards; also: such histories exist, and ids given by Add are the ids filed."
  },
  {
   "property": "C27",
   "status": "proved",
   "theorems": [
    "C27_limited_query",
    "C27_unlimited_query",
    "C27_histories"
   ],
   "note": "All slices (length <= capacity); prefix in exact form."
  },
  {
   "property": "C28",
   "status": "proved",
   "theorems": [
    "C28_every_duplicate_once",
    "C28_next_returns",
    "C28_histories"
   ],
   "note": "Any sizes of destination in any call; also that every call returns and end of file is reached after finitely many calls."
  },
  {
   "property": "C29",
   "status": "proved",
   "theorems": [
    "C29_in_order_of_frequency",
    "C29_histories"
   ],
   "note": "Holds at every point of the iteration, whatever the sort does to ties."
  },
  {
   "property": "C30",
   "status": "partial",
   "theorems": [
    "C30_histories_partial",
    "C30_one_shard_partial",
    "C30_limited_entries_refuted",
    "C30_limited_entries_partial"
   ],
   "note": "REFUTED: with room for two documents per entry, after a full blot the next blot is skipped (witness index in the default configuration); proved for entries that have more room than any blot has documents, and for any entries with room for two or more when there is one shard."
  },
  {
   "property": "C31",
   "status": "partial",
   "theorems": [
    "C31_histories_refuted",
    "C31_end_is_slow_refuted",
    "C31_end_is_reached",
    "C31_end_again_partial"
   ],
   "note": "REFUTED: on every index the call after the last one spins 2^32-1 rounds (uint32 counter compared with = against the number of shards); proved that it then reports end of file again."
  },
  {
   "property": "C32",
   "status": "proved",
   "theorems": [
    "C32_statistics"
   ],
   "note": "All histories; exact numbers. The number of documents is one too many, see C07."
  },
  {
   "property": "C33",
   "status": "partial",
   "theorems": [
    "C33_create_excludes",
    "C33_shared_waits_for_creators_only",
    "C33_readers_together",
    "C33_same_lock_file",
    "C33_trailing_slash_refuted"
   ],
   "note": "REFUTED in one corner: OpenIndex of a root with a trailing slash (or '.') uses another lock file than the creator; proved for users of the same lock file under all schedules (flock conversion is not atomic in the model), and that roots ending in an ordinary name have one lock file."
  },
  {
   "property": "C34",
   "status": "partial",
   "theorems": [
    "C34_append_excludes_refuted",
    "C34_append_excludes_partial"
   ],
   "note": "REFUTED: OpenIndexer takes a shared lock, so any number of appenders and readers are in together; proved that appenders and creators exclude each other."
  },
  {
   "property": "C35",
   "status": "partial",
   "theorems": [
    "C35_unlock_releases_refuted",
    "C35_close_releases_partial"
   ],
   "note": "REFUTED: Unlock takes a shared lock instead, so after it nobody else can ever get the lock exclusively until the handle is closed; proved that closing the handle releases."
  },
  {
   "property": "C36",
   "status": "proved",
   "theorems": [
    "C36_no_half_written_index",
    "C36_no_wrong_answers",
    "C36_complete_is_reached"
   ],
   "note": "Stopping = the process ends between or within system calls; what has been written stays. Stopping is modelled at every write of every file, in every interleaving."
  },
  {
   "property": "C37",
   "status": "partial",
   "theorems": [
    "C37_append_can_destroy_refuted",
    "C37_append_keeps_partial",
    "C37_error_or_kept_partial",
    "C37_end_is_reached",
    "C37_start_is_reached"
   ],
   "note": "REFUTED: Close truncates the shards' tables before writing them anew (internal/shard/indexer.go:113-158), so a process stopped there leaves an index that cannot be opened. Whenever the session is stopped, opening reports an error or the earlier documents can all be read (C37_error_or_kept_partial); until Close starts writing the file names and tables it is always the latter (C37_append_keeps_partial). Missing: queries with more room than the blot had earlier documents."
  },
  {
   "property": "C38",
   "status": "partial",
   "theorems": [
    "C38_new_config",
    "C38_new_config_is",
    "C38_read_config_partial",
    "C38_read_config_refuted"
   ],
   "note": "NewConfig and what it builds: all integers. REFUTED for ReadConfig when the product overflows (sequence length 0 with a 2^32 x 2^32 blotter is accepted); proved exactly when the product is an int64."
  },
  {
   "property": "C39",
   "status": "partial",
   "theorems": [
    "C39_read_back_exactly",
    "C39_read_back_refuted",
    "C39_bad_root_refuted",
    "C39_read_back_partial"
   ],
   "note": "REFUTED: Write does not truncate, every configuration has a longer file with the same meaning after which Write leaves an unreadable one; also a root that is not UTF-8 is changed. Proved exactly when the file is read back (the rest of the old file is blank), through a model of encoding/json."
  },
  {
   "property": "C40",
   "status": "proved",
   "theorems": [
    "C40_find_blot_first_place",
    "C40_spans_are_words",
    "C40_spans_exist"
   ],
   "note": "First place, exact range, error exactly when absent; Start+length < 2^32."
  },
  {
   "property": "C41",
   "status": "proved",
   "theorems": [
    "C41_find_blots_only_equal_text",
    "C41_find_blots_exact"
   ],
   "note": "Soundness for every document, and an exact characterisation for documents starting at zero."
  },
  {
   "property": "C42",
   "status": "partial",
   "theorems": [
    "C42_find_blots_with_start_refuted",
    "C42_find_blots_panics_refuted",
    "C42_find_blots_with_start_partial",
    "C42_find_blot_with_start_partial"
   ],
   "note": "REFUTED: FindBlots slices Dat with absolute positions (panics or compares the wrong text); proved that FindBlot shifts correctly."
  },
  {
   "property": "C43",
   "status": "partial",
   "theorems": [
    "C43_concurrent_gets_refuted",
    "C43_wrong_document_refuted",
    "C43_taking_turns_partial",
    "C43_own_index_partial",
    "C43_get_alone",
    "C43_all_can_finish",
    "C43_next_alone",
    "C43_calls_partial",
    "C43_concurrent_next_refuted",
    "C43_next_wrong_document_refuted"
   ],
   "note": "REFUTED: Lookup seeks and then reads on one shared *os.File (dmd/t.go:50-65); another goroutine's seek in between makes Get, or Next, return another document. Holds for any lists of Gets and Nexts, each goroutine with a Query of its own, when lookups on one open index do not overlap, or when each goroutine has its own index (_partial)."
  },
  {
   "property": "C44",
   "status": "partial",
   "theorems": [
    "C44_failing_write_classified_partial",
    "C44_failing_write_refuted",
    "C44_right_or_reported_partial",
    "C44_no_failure_same_model"
   ],
   "note": "REFUTED: the model has the code's behaviour on a failed write: the error while serving is only logged and eight 0xff bytes stay in the poster's buffer, so the retried chunk cannot be decoded and Close reports nothing. Exact classification proved for every start state, every sequence of posts, every failing write and every number of bytes it got written: error reported iff the failing write is one of Close's; link failures are harmless; length/chunk failures while serving make exactly that slot unreadable. Not modelled: failing Stat/Seek, failing writes to the table."
  },
  {
   "property": "C45",
   "status": "proved",
   "theorems": [
    "C45_like_reports_real_matches",
    "C45_stretch_words"
   ],
   "note": "For every index, also a corrupt one; the files are those at the time of the command."
  },
  {
   "property": "C46",
   "status": "proved",
   "theorems": [
    "C46_extract_prints_the_frequent",
    "C46_on_histories"
   ],
   "note": "Any threshold (the floating point computation of it is not modelled), both output formats; all histories."
  },
  {
   "property": "C47",
   "status": "partial",
   "theorems": [
    "C47_offsets_refuted",
    "C47_blots_partial"
   ],
   "note": "REFUTED: no range printed by blot -offsets is ever right: it indexes the unfiltered tokens. The blots printed and the absence of panics are proved."
  },
  {
   "property": "C48",
   "status": "proved",
   "theorems": [
    "C48_splits_at_first_verb",
    "C48_nothing_lost",
    "C48_no_verb_usage",
    "C48_all_lists"
   ],
   "note": "All argument lists; Go's range variable semantics included."
  },
  {
   "property": "C49",
   "status": "partial",
   "theorems": [
    "C49_unreadable_refuted",
    "C49_add_error_refuted",
    "C49_parent_refuted",
    "C49_twice_refuted",
    "C49_sound",
    "C49_all_added_partial",
    "C49_no_error"
   ],
   "note": "REFUTED: a file that cannot be opened silently ends the walk of its argument (C49_unreadable_refuted), errors of Indexer.Add are dropped (C49_add_error_refuted), an argument whose last name is '..' is skipped as hidden (C49_parent_refuted), and files under two arguments are added twice (C49_twice_refuted). Proved: everything added is a visible file, whole, once per argument (C49_sound); with no unopenable visible file, no failing Add and no dotted argument, either an error is reported or all visible files are added (C49_all_added_partial); if everything can be read no error is reported (C49_no_error)."
  },
  {
   "property": "C50",
   "status": "partial",
   "theorems": [
    "C50_added_is_reported",
    "C50_union_keeps",
    "C50_adding_succeeds",
    "C50_large_filter_panics",
    "C50_posts_partial",
    "C50_posts_refuted"
   ],
   "note": "Filter: proved for all sizes, hash counts, sets, values, later adds and unions (sizes of 2^29 bytes panic). REFUTED for post sets whose history has an Intersect: AddPost of the last post is skipped although the intersection removed it; proved for all histories of AddPost and Union."
  },
  {
   "property": "C51",
   "status": "partial",
   "theorems": [
    "C51_in_range",
    "C51_token_in_range",
    "C51_spells_partial",
    "C51_from_tokens",
    "C51_after_eod_refuted"
   ],
   "note": "In range for all token sequences and starts. Spelling proved unless an end-of-document token is followed by more (the tokenizer makes none); REFUTED with one in the middle: the code restarts at 000."
  },
  {
   "property": "C52",
   "status": "partial",
   "theorems": [
    "C52_failed_create_releases_refuted",
    "C52_exit_releases_partial"
   ],
   "note": "REFUTED: after a failed create the exclusive lock stays taken until the process ends; proved that the end of the process (or the finalizer) releases it."
  },
  {
   "property": "C53",
   "status": "partial",
   "theorems": [
    "C53_root_option_partial",
    "C53_root_option_refuted",
    "C53_ignored_option_refuted",
    "C53_exact"
   ],
   "note": "REFUTED: a root named like a verb is taken for the verb, and an option after a non-option argument is silently ignored. C53_exact says for all argument lists, environments and home directories, if and only if, which verb runs with which arguments on which root. C53_root_option_partial: the root is the one of -r when the global arguments are only -r options (all four notations) and none is a verb name."
  },
  {
   "property": "C54",
   "status": "partial",
   "theorems": [
    "C54_like_misses_refuted",
    "C54_missing_file_refuted",
    "C54_like_complete_partial",
    "C54_like_finds_copies_partial",
    "C54_like_exact_partial",
    "C54_like_exactly_partial"
   ],
   "note": "REFUTED: only the last stretch with a blot is looked for; and one unreadable matching document makes like fail. Exact characterisation, completeness under conditions, and that copies are found are proved."
  },
  {
   "property": "C55",
   "status": "proved",
   "theorems": [
    "C55_unblot_exact",
    "C55_too_large",
    "C55_histories"
   ],
   "note": "All indexes and blots; documents that cannot be read are skipped. Order of the texts left open."
  },
  {
   "property": "C56",
   "status": "partial",
   "theorems": [
    "C56_moved_refuted",
    "C56_copy_answers_refuted",
    "C56_copy_appends_refuted",
    "C56_in_place_partial"
   ],
   "note": "REFUTED: everything but cfg.json is read from the IndexRoot stored in cfg.json (index.go:50-71, indexer.go:86-96): a moved index cannot be opened, opening a copy opens the original (answers and appends are the original's). Partial: in the directory it was made in, an index opens as stated."
  },
  {
   "property": "C57",
   "status": "partial",
   "theorems": [
    "C57_removes_exactly_partial",
    "C57_indexer_removes_exactly_partial",
    "C57_removes_original_refuted",
    "C57_removed_while_open_refuted",
    "C57_lock_file_stays_refuted"
   ],
   "note": "REFUTED: the removal goes by the stored root, so removing a copy removes the original; the lock is released before the removal, so an index somebody else has opened meanwhile is removed under them; and the lock file, which lies outside of the directory, stays (remove.go). Partial: exactly the files below the stored root are removed. Errors of os.RemoveAll are not modelled."
  },
  {
   "property": "C58",
   "status": "partial",
   "theorems": [
    "C58_print_spells",
    "C58_printed_is_understood",
    "C58_scan_exact_partial",
    "C58_0x_refuted"
   ],
   "note": "REFUTED: fmt.Sscanf with %x ignores what follows the digits, so that 0x1f is blot 0 (cmd/dupi/unblot.go:52). Proved: printed blots are spelled and understood exactly; partial: what any argument is taken for."
  },
  {
   "property": "C59",
   "status": "partial",
   "theorems": [
    "C59_untouched_partial",
    "C59_reused_slice_refuted",
    "C59_torn_refuted",
    "C59_path_is_taken_refuted"
   ],
   "note": "REFUTED: Add hands the slice itself to a worker that reads it after Add has returned (indexer.go:242, shatter.go:46-53): a caller that reuses its buffer has other text indexed; and Add empties the Path of the caller's document (indexer.go:241,251), so adding it again files it under the working directory. Partial: with slices left alone, documents are read as they were."
  },
  {
   "property": "C60",
   "status": "partial",
   "theorems": [
    "C60_range_refuted",
    "C60_bodies_partial"
   ],
   "note": "REFUTED: Start is the offset of the record plus the lengths of its first field and its header, but End is the offset plus the length of the body only (cmd/dupenron/main.go:116-121), so no document of any file has a range of the length of its text; reading it back gives another text or fails. Partial: one document per record, of the message after its header."
  },
  {
   "property": "C61",
   "status": "partial",
   "theorems": [
    "C61_options_partial",
    "C61_t_refuted",
    "C61_s0_refuted",
    "C61_n0_refuted",
    "C61_negative_n_refuted",
    "C61_a_refuted",
    "C61_existing_partial",
    "C61_a_partial"
   ],
   "note": "REFUTED: any -t other than 10 is refused, since Config.SeqLen is changed and the blotter's sequence length is not (config.go:64-84); -s 0 and below is accepted and the first Add then blocks for ever; -n 0 is accepted and documents of more than ten words then panic; a negative -n panics; with -a all other options are ignored. Partial: an existing root is refused, -a opens the index in its place, and the default -t with 1 to 65535 shards and at least one worker gives the index asked for, into which any documents that fit can be added."
  },
  {
   "property": "C62",
   "status": "partial",
   "theorems": [
    "C62_lost_refuted",
    "C62_same_numbers_refuted",
    "C62_serial_partial"
   ],
   "note": "REFUTED: openFromConfig takes a shared lock (indexer.go:124) and keeps what it has read; the session that closes last overwrites files.fnm and the tables. So the paths of the documents of the other session are lost and no query shows them, and both give the same numbers to their documents, under which the index has the start and end of the first session's. Partial: sessions that follow one another lose nothing."
  },
  {
   "property": "C63",
   "status": "proved",
   "theorems": [
    "C63_ones",
    "C63_is_zero",
    "C63_fresh",
    "C63_union",
    "C63_intersect",
    "C63_put_ones"
   ],
   "note": "Proved; positions in a set are naturals, and Has is stated for filters of fewer than 2^29 bytes (beyond, the number of bits overflows, see C50)."
  },
  {
   "property": "C64",
   "status": "partial",
   "theorems": [
    "C64_accepted_refuted",
    "C64_search_panics_refuted",
    "C64_commands_panic_refuted",
    "C64_not_found_refuted",
    "C64_search_partial"
   ],
   "note": "REFUTED: the number of shards times 65536 is computed in uint32 (index.go:217,257, cmd/dupi/blot.go, like.go); multiples of 65536 are accepted, and then searching and the blot and like commands panic on every document with a blot; with other numbers above 65536 the blots from the wrapped product on are not found in the documents they come from. Partial: below 65536 shards FindBlot gives a place or an error (what it gives: C40). Not shown: that a whole indexing session with that many shards completes."
  },
  {
   "property": "C65",
   "status": "partial",
   "theorems": [
    "C65_shifted_refuted",
    "C65_torn_refuted",
    "C65_nothing_written_partial",
    "C65_earlier_partial",
    "C65_file_partial"
   ],
   "note": "REFUTED: flush keeps all buffered records after an error although some have reached the file (dmd/adder.go:87-93), and the next call appends all of them again: with one failing write, every flush rate above 1, numbers lead to the record of another document while Close reports success; with a torn record the documents of later sessions are wrong as well. Partial: right when the failing calls wrote nothing; the earlier sessions' documents are always kept; the exact contents of the file for every sequence of failures."
  },
  {
   "property": "C66",
   "status": "proved",
   "theorems": [
    "C66_mean_and_sigma",
    "C66_rounding",
    "C66_rounding_unique",
    "C66_root",
    "C66_uniform",
    "C66_threshold"
   ],
   "note": "Error bounds of BlotMean and BlotSigma against the exact mean and variance over all blots, with and without fused multiply-add; exactness when all blots have equally many documents; threshold and output of extract. float64 is given by its definition over Q: C66_rounding, C66_rounding_unique and C66_root say that the model's rounding and square root give exactly the nearest float64, ties to even."
  },
  {
   "property": "C67",
   "status": "partial",
   "theorems": [
    "C67_monotone_partial",
    "C67_overflow",
    "C67_large_sigma_refuted"
   ],
   "note": "REFUTED: with a -sigma so large that the threshold is not an int64 (and with inf and nan), the conversion on amd64 gives the smallest int64 and extract prints every duplicated blot (C67_large_sigma_refuted a witness, C67_overflow for every index). Partial: monotone whenever mean + |sigma|*BlotSigma <= 2^63 - 2^13, in particular for |sigma| <= 2^20 (C67_monotone_partial)."
  },
  {
   "property": "C68",
   "status": "proved",
   "theorems": [
    "C68_no_races"
   ],
   "note": "The locations and accesses are those listed in Model/Fine.v. Initialisation before the goroutines start is not in the trace."
  },
  {
   "property": "C69",
   "status": "proved",
   "theorems": [
    "C69_posts_in_order",
    "C69_schedule_does_not_matter",
    "C69_no_deadlock",
    "C69_completes",
    "C69_close_waits"
   ],
   "note": "The goroutines are those of Model/Fine.v; accesses that do not change the modelled state may be repeated any number of times and are not counted in the bound."
  },
  {
   "property": "C70",
   "status": "partial",
   "theorems": [
    "C70_lines",
    "C70_unambiguous_partial",
    "C70_blots",
    "C70_spaces_refuted"
   ],
   "note": "REFUTED: paths with spaces make the lines ambiguous: three documents and two documents give the same output (C70_spaces_refuted). The lines are exactly those specified (C70_lines) and unambiguous when no path contains a space or an end of line (C70_unambiguous_partial); with -b the blots can always be read (C70_blots). Failures to write to standard output are not modelled."
  },
  {
   "property": "C71",
   "status": "partial",
   "theorems": [
    "C71_stream_partial",
    "C71_determined",
    "C71_not_one_refuted",
    "C71_bytes_refuted"
   ],
   "note": "REFUTED: one array is printed per blot, so that the output is no JSON document unless exactly one blot is printed (C71_not_one_refuted: two and none), and paths that are not UTF-8 cannot be told apart (C71_bytes_refuted). With UTF-8 paths a json.Decoder reads exactly the frequent blots and their documents (C71_stream_partial, C71_determined)."
  },
  {
   "property": "C72",
   "status": "partial",
   "theorems": [
    "C72_index",
    "C72_extract",
    "C72_sigma",
    "C72_sigma_short",
    "C72_sigma_refuted",
    "C72_blot",
    "C72_unblot",
    "C72_inspect",
    "C72_exit",
    "C72_later_refuted",
    "C72_false_refuted",
    "C72_octal_refuted",
    "C72_like_refuted",
    "C72_like"
   ],
   "note": "REFUTED: options behind a path are taken for paths (C72_later_refuted), the word false behind -json does not unset it (C72_false_refuted), -n 010 is 8 (C72_octal_refuted), like opens the file -- (C72_like_refuted), a -sigma of 100000 characters that writes 1 is read as 0 (C72_sigma_refuted). Proved for all argument lists: which options and arguments each of the six verbs runs with, if and only if, and their exit status. The value of -sigma is characterised for every string (C72_sigma), and as the nearest float64 of the number written for up to 2000 characters (C72_sigma_short)."
  },
  {
   "property": "C73",
   "status": "proved",
   "theorems": [
    "C73_creates",
    "C73_adds",
    "C73_refuses_existing",
    "C73_refuses_missing",
    "C73_no_verb",
    "C73_help",
    "C73_misread",
    "C73_extract",
    "C73_like",
    "C73_copies",
    "C73_blot",
    "C73_blot_offsets",
    "C73_inspect",
    "C73_unblot"
   ],
   "note": "Whole runs of dupi. Not in it: runs that panic, index when making the indexer fails halfway. extract when the threshold fits into 64 bits (always for |sigma| <= 2^20) and with -json for paths that are UTF-8; like when all documents are in place and its files can be read; unblot for hexadecimal numbers below 2^32 and documents that are in place or gone (or changed, but not cut so that positions pass 2^32); blot -offsets for files below 4 GiB; -t, -c with their defaults when creating."
  },
  {
   "property": "C74",
   "status": "partial",
   "theorems": [
    "C74_plain",
    "C74_json",
    "C74_numbers",
    "C74_no_shards_refuted"
   ],
   "note": "REFUTED: of an index made with -n 0, inspect -json prints nothing and exits with status 1, since the mean is 0/0 (C74_no_shards_refuted). Otherwise proved: C74_plain, C74_json (root UTF-8), C74_numbers (every nonnegative finite float64). The number of documents shown is one too many (C32)."
  },
  {
   "property": "C75",
   "status": "partial",
   "theorems": [
    "C75_get",
    "C75_next",
    "C75_extract_partial",
    "C75_extract_refuted",
    "C75_append_refuted"
   ],
   "note": "REFUTED: with the dmd file cut short (here to nothing), Next returns the io.EOF of Lookup, and extract takes it for the end: it prints nothing and succeeds (C75_extract_refuted, for every history and threshold with something to print); an appending session starts again with id 1 (C75_append_refuted). Proved: all cuts of all files for Get and Next (C75_get, C75_next), and extract unless the dmd file is shorter (C75_extract_partial; else it still prints a first part of the right list)."
  },
  {
   "property": "C76",
   "status": "partial",
   "theorems": [
    "C76_open",
    "C76_config",
    "C76_get_partial",
    "C76_open_refuted",
    "C76_get_refuted",
    "C76_loop_refuted"
   ],
   "note": "REFUTED: a file of names with a parent that is not in it makes opening panic (C76_open_refuted); for every history and every blot that a document has, changing one byte of a posting file, the first of the blot's list, makes Get panic (C76_get_refuted), and other bytes make it loop (C76_loop_refuted: a chunk that names itself as the next one). C76_open and C76_config say exactly when opening gives an index, an error or a panic, for all contents. C76_get_partial says exactly when Get gives documents (and which), panics, or never ends, for all contents; an entry that Next returns is what Get gives (C101_entries_are_answers, C101_opened_in_order). Missing: when Next and extract fail, panic or never end; 2^32 shards and more; which error is returned."
  },
  {
   "property": "C77",
   "status": "proved",
   "theorems": [
    "C77_next_returns",
    "C77_bounded",
    "C77_ends",
    "C77_histories"
   ],
   "note": "For any index as opened after any history (fewer than 65536 shards) and any empty entries. The bound on the number of entries is not computed."
  },
  {
   "property": "C78",
   "status": "partial",
   "theorems": [
    "C78_histories_partial",
    "C78_one_shard_histories_partial",
    "C78_once_refuted",
    "C78_roomy_partial",
    "C78_one_shard_partial"
   ],
   "note": "REFUTED: fifteen documents in the default configuration, entries with room for three: when a blot ends exactly with an entry, Next moves another shard back and returns its documents again. Proved for entries that cannot fill up, and for one shard, where the entries for a blot put together are its documents in order, all but at most the last."
  },
  {
   "property": "C79",
   "status": "partial",
   "theorems": [
    "C79_stale_refuted",
    "C79_get",
    "C79_next",
    "C79_get_partial",
    "C79_next_partial"
   ],
   "note": "REFUTED: docid2Doc sets path, start and end of a document but not Dat (index.go:295-297), and a limited slice is filled in place (blot.go:47-50); FindBlot and FindBlots load only if Dat is nil. So in a slice used again, documents are searched in the text of those that were there before (C79_stale_refuted). C79_get and C79_next say exactly which text each document comes with, for any index. Partial: with slices that are nil or without texts, every document returned is searched in the text that was indexed, and the blot found. An empty Dat that is not nil is not told apart from nil."
  },
  {
   "property": "C80",
   "status": "partial",
   "theorems": [
    "C80_load",
    "C80_index",
    "C80_large_refuted",
    "C80_zero_refuted",
    "C80_new_doc_partial",
    "C80_history_partial"
   ],
   "note": "REFUTED: End is the length modulo 2^32 (cmd/dupi/index.go:132), so of larger files only the first bytes are loaded (C80_large_refuted; C80_index for every document the command adds, if and only if), and start and end 0 always mean the whole file (C80_zero_refuted). C80_load says what Load gives for all ranges (a range that ends before it starts: only for files too short for it). Partial: documents in place load as they were indexed, after any history."
  },
  {
   "property": "C81",
   "status": "partial",
   "theorems": [
    "C81_add_refuted",
    "C81_close_refuted",
    "C81_reached"
   ],
   "note": "REFUTED: after Close no worker is left to take a request, so Add and a second Close wait for ever (proved for every closed session and every schedule). With NumShatters <= 0 a second Close would panic instead (closing a closed channel); that is not modelled."
  },
  {
   "property": "C82",
   "status": "proved",
   "theorems": [
    "C82_reported",
    "C82_nil_created",
    "C82_nil_appended",
    "C82_C83_reached"
   ],
   "note": "Failing calls are those of OpenFile, Write, WriteAt, Seek and Stat. The code drops the results of the deferred File.Close; the model takes them to have no effect."
  },
  {
   "property": "C83",
   "status": "partial",
   "theorems": [
    "C83_close_destroys_refuted",
    "C83_created_partial",
    "C83_appended_partial"
   ],
   "note": "REFUTED: Close truncates the file names and tables before it writes them, so a full disk leaves an index that cannot be opened. What holds after a failed Close (_partial): opening reports an error, or the earlier documents can all be read; a new index has everything or cannot be opened."
  },
  {
   "property": "C84",
   "status": "partial",
   "theorems": [
    "C84_histories_partial",
    "C84_wrong_refuted",
    "C84_kept_refuted",
    "C84_forever_refuted",
    "C84_next_partial"
   ],
   "note": "REFUTED: an entry that is not reset keeps its documents, and the next ones are appended up to its capacity (query.go:138, blot.go:47-55): the second call returns a blot with another blot's documents (C84_wrong_refuted, default configuration; C84_kept_refuted, every index), and full entries are returned for ever without progress (C84_forever_refuted). Partial: every call returns, and what an entry has got is its old documents and then consecutive documents of its blot."
  },
  {
   "property": "C85",
   "status": "partial",
   "theorems": [
    "C85_panics_refuted",
    "C85_reopening_partial",
    "C85_known_paths_partial",
    "C85_earlier_documents_partial"
   ],
   "note": "REFUTED: if a document with a path unknown at the opening gets a blot that earlier documents have, the query panics (fnames.abs indexes beyond its slice). Proved: all documents are returned if the paths are known; limited queries give the earlier documents at every moment."
  },
  {
   "property": "C86",
   "status": "partial",
   "theorems": [
    "C86_index",
    "C86_indexer_partial",
    "C86_failed_close_refuted",
    "C86_failed_open_refuted"
   ],
   "note": "REFUTED: a failed opening or creating keeps everything it had opened and started (no cleanup on the error paths), and Indexer.Close returns before closing the shards if the configuration, names or document records cannot be written. Proved: Index balanced for all outcomes; Indexer balanced whenever Close returns nil."
  },
  {
   "property": "C87",
   "status": "partial",
   "theorems": [
    "C87_lock_refuted",
    "C87_index_partial",
    "C87_indexer_refuted"
   ],
   "note": "REFUTED: Indexer.Close returns nil when every File.Close fails; Index.Close drops the error of lock.Close (a deferred function sets a variable that is not a named result). Proved: Index.Close reports exactly the errors of dmd and the shards."
  },
  {
   "property": "C88",
   "status": "partial",
   "theorems": [
    "C88_even_refuted",
    "C88_apart_refuted",
    "C88_crowded_refuted"
   ],
   "note": "REFUTED: window hashes are combined by xor, so words occurring an even number of times cancel and every text with such a window is listed under blot 0; witness in the default configuration; and by counting, with more documents than blots."
  },
  {
   "property": "C89",
   "status": "partial",
   "theorems": [
    "C89_lost_refuted",
    "C89_silent_refuted",
    "C89_no_file_refuted",
    "C89_prefix_partial"
   ],
   "note": "REFUTED: no Flush; the last bytes are always missing, and everything up to 4096 bytes; errors are dropped, no argument panics. Partial: exactly which prefix is printed"
  },
  {
   "property": "C90",
   "status": "proved",
   "theorems": [
    "C90_reads",
    "C90_reads_cr",
    "C90_bad",
    "C90_round_trip",
    "C90_any"
   ],
   "note": "encoding/csv with the options of dupenron: LazyQuotes, two fields; grammar of RFC 4180"
  },
  {
   "property": "C91",
   "status": "partial",
   "theorems": [
    "C91_lost_refuted",
    "C91_reached",
    "C91_found_partial"
   ],
   "note": "REFUTED: log.Fatal after an error leaves an unclosed index that can be opened neither for reading nor for appending, nor be created again. Partial: status 0 gives an index with exact queries"
  },
  {
   "property": "C92",
   "status": "proved",
   "theorems": [
    "C92_docid"
   ],
   "note": "docid2Doc on what OpenIndex reads, for all documents whether they have blots or not"
  },
  {
   "property": "C93",
   "status": "partial",
   "theorems": [
    "C93_numbers_refuted",
    "C93_few_partial"
   ],
   "note": "REFUTED: uint32; document 2^32 has number 0 and all later ones the number of an earlier one. Partial: up to 2^32 - 1 documents"
  },
  {
   "property": "C94",
   "status": "partial",
   "theorems": [
    "C94_blotter",
    "C94_filter_partial",
    "C94_filter_refuted",
    "C94_names"
   ],
   "note": "REFUTED for filters whose size in bits is not an int64; proved exactly otherwise, and for all blotters after any use"
  },
  {
   "property": "C95",
   "status": "proved",
   "theorems": [
    "C95_earlier_documents",
    "C95_one_moment",
    "C95_own_moments"
   ],
   "note": "Get with a limited slice; the moments are those of sessions that are run to any point, not of sessions that append to the files of a crashed one"
  },
  {
   "property": "C96",
   "status": "partial",
   "theorems": [
    "C96_stopped_append_tears_refuted"
   ],
   "note": "REFUTED: flushTo writes the link to the new batch before the batch; stopped in between, queries for the blot end with an error and OpenIndexer fails. What remains is C37_error_or_kept_partial."
  },
  {
   "property": "C97",
   "status": "partial",
   "theorems": [
    "C97_same_number_refuted",
    "C97_panics_refuted",
    "C97_never_closes_refuted",
    "C97_in_turn_partial",
    "C97_earlier_partial"
   ],
   "note": "REFUTED: neither Indexer.Add nor dmd.Adder.Add takes a lock: two calls can read the same length of the buffer, get the same number and lose a record; with the buffer full one can panic; after two equal numbers Close never returns, in any execution (a worker waits for a turn that has passed). Proved: calls that do not overlap are as specified, and earlier records stay (_partial). Sequentially consistent accesses; addPath is not part of the race model."
  },
  {
   "property": "C98",
   "status": "proved",
   "theorems": [
    "C98_answers_are_right",
    "C98_earlier_documents_are_there"
   ],
   "note": "Proved for all schedules of the session and all prefixes of its writes. Queries that fail are C96's subject. Query.Next is in C101_after_a_stop; extract is not covered."
  },
  {
   "property": "C99",
   "status": "partial",
   "theorems": [
    "C99_wrong_document_refuted",
    "C99_query_fails_refuted",
    "C99_other_blots_partial"
   ],
   "note": "REFUTED: Close writes the posting files before the tables (internal/shard/indexer.go:113-118). If it is stopped in between, the next session takes each slot's last document number from the old table but follows the chain of chunks to the new end (poster.go:60-83, 107-139), so that the numbers it stores are read shifted. C99_wrong_document_refuted: any index, a further document with the words of its last one, stop; then one more such document and one without the blot: a query for the blot tells the latter instead of the former. C99_query_fails_refuted: without the latter the query ends with EOF. C99_other_blots_partial: after that stop and any further session, blots of no document of the stopped session give the right answers, and for blots that are new with the stopped session queries tell the documents of the further session. Missing: stops at other points."
  },
  {
   "property": "C100",
   "status": "partial",
   "theorems": [
    "C100_misaligned_refuted",
    "C100_older_partial"
   ],
   "note": "REFUTED: dmd.NewAdder takes the number of records to be the size over 12, rounded down, and flush appends. If the write of a record fails after 8 bytes (full disk) Close reports the error, the index opens for appending, and the document appended next is told with the path and start of the one that failed. Partial: blots the new document does not have are answered as before (one document per session, 8 bytes written)."
  },
  {
   "property": "C101",
   "status": "proved",
   "theorems": [
    "C101_entries_are_answers",
    "C101_all_once",
    "C101_opened_in_order",
    "C101_after_a_stop",
    "C101_a_lost_list_hides_others"
   ],
   "note": "Proved for any open index; C101_a_lost_list_hides_others shows that the condition of C101_all_once is needed: with one list gone from the first shard Next ends at once although the second shard has a duplicated blot."
  },
  {
   "property": "C102",
   "status": "partial",
   "theorems": [
    "C102_opens_partial",
    "C102_no_dmd_refuted",
    "C102_overlong_refuted"
   ],
   "note": "REFUTED: without the file dmd OpenIndexer begins a new one and OpenIndex fails (every index); with a total of 0 written in ten bytes, the last of them 2, OpenIndexer opens exactly as before and OpenIndex fails. C102_opens_partial: with dmd there and no overlong number in a table, OpenIndex succeeds whenever OpenIndexer does, for any files."
  },
  {
   "property": "C103",
   "status": "partial",
   "theorems": [
    "C103_first_time",
    "C103_before_the_directory_partial",
    "C103_leaves_a_directory",
    "C103_wrong_config",
    "C103_create_again_refuted"
   ],
   "note": "REFUTED: once an attempt has failed and left a directory, no later attempt succeeds and the index cannot be opened (C103_create_again_refuted); every call after Mkdir that fails does that (C103_leaves_a_directory), and so does a configuration with another tokenizer (C103_wrong_config). C103_before_the_directory_partial: failures of the lock and of Mkdir leave nothing; C103_first_time: without failures it is what the other models have."
  },
  {
   "property": "C104",
   "status": "partial",
   "theorems": [
    "C104_still_there_partial",
    "C104_fewer_shards",
    "C104_more_shards",
    "C104_replaced_refuted"
   ],
   "note": "REFUTED: OpenIndexer reads the configuration before it takes the lock. If the index has meanwhile been replaced by one of more shards, the session works with the number of shards of the old one and writes the old configuration over the new one; C104_more_shards tells exactly what every query then answers, and C104_replaced_refuted is a case in which a query tells documents without the blot and another misses documents that have it. C104_fewer_shards: replaced by one of fewer shards, opening fails. C104_still_there_partial: while the index is the one of the configuration, however many sessions others have appended in between, all is well. Not modelled: replacing while the files are being opened."
  },
  {
   "property": "C105",
   "status": "partial",
   "theorems": [
    "C105_error_or_answer_partial",
    "C105_documents_lost_refuted",
    "C105_blank_document_refuted",
    "C105_get_blank_refuted"
   ],
   "note": "REFUTED: whichever reads fail, a Get or Next that does not report an error gives the answer it gives when none fails (_partial). But for every call of Next (one unlimited entry) that would return a blot with n documents and every 1 <= i <= n-2, one failing read makes it report an error, and the next call returns the blot without its first i documents, with no error, and leaves the query where it would have been (C105_documents_lost_refuted); given the entry of the failed call, it returns a document with no path and no extent (C105_blank_document_refuted); so does Get with the Blot of a failed Get (C105_get_blank_refuted)."
  },
  {
   "property": "C106",
   "status": "partial",
   "theorems": [
    "C106_documents_lost_refuted",
    "C106_records_lost_refuted",
    "C106_names_lost_refuted",
    "C106_all_or_none_partial",
    "C106_cut_short_partial"
   ],
   "note": "REFUTED: the files are not synced; with one old table the new blots of the shard are silently not found, with the old dmd queries fail, with the old files.fnm they panic. Proved: otherwise a query is complete, whichever of these files are old; never a wrong document."
  },
  {
   "property": "C107",
   "status": "partial",
   "theorems": [
    "C107_in_directory",
    "C107_apart",
    "C107_lock_apart",
    "C107_emptied_refuted",
    "C107_emptied_by_create_refuted",
    "C107_neighbour_refuted",
    "C107_nothing_else_partial",
    "C107_append_nothing_else_partial",
    "C107_opens"
   ],
   "note": "REFUTED: lock.New opens the lock file with O_TRUNC, so whatever file is called like the root with .lock behind it is emptied by opening an index for reading (even one that is not there) and by creating one; an index x prevents an index x.lock and the other way round. Proved: the files of an index are in its directory with names of their own, apart from each other and from all lock files; opening changes nothing but the lock file; opening by paths finds what was written."
  },
  {
   "property": "C108",
   "status": "partial",
   "theorems": [
    "C108_creating_refuted",
    "C108_adding_refuted",
    "C108_changed_refuted",
    "C108_hidden_partial",
    "C108_default_root"
   ],
   "note": "REFUTED: an index in a directory that it indexes (no name on the way being hidden) gets its own posting files, tables and lock file as documents, and with -a all of its files; Close then changes them. Proved: an index whose directory is called like a hidden file, as the default root is, gets none of them unless they are asked for."
  },
  {
   "property": "C109",
   "status": "proved",
   "theorems": [
    "C109_as_if_alone",
    "C109_answers"
   ],
   "note": "Sequential sessions per index; sessions of different indexes in any interleaving. Failing sessions, crashes and removal are not among the events (C36, C37, C57, C96 are about one index)."
  },
  {
   "property": "C110",
   "status": "partial",
   "theorems": [
    "C110_alone_partial",
    "C110_readers_share_refuted",
    "C110_unlocks_partial",
    "C110_closes_partial",
    "C110_released_partial",
    "C110_failed_open_refuted"
   ],
   "note": "REFUTED: LockShared is Lock on Windows, so readers exclude each other (C110_readers_share_refuted), and the lock stays taken when opening fails (C110_failed_open_refuted). Proved: whoever has the index open has it alone, Unlock and Close give up the lock, and the next one can take it."
  },
  {
   "property": "C111",
   "status": "proved",
   "theorems": [
    "C111_entries_right",
    "C111_all_once",
    "C111_entries_are_answers",
    "C111_next_at_one_moment",
    "C111_answers_right"
   ],
   "note": "Get, and Next with unlimited entries (C111_entries_right, C111_all_once, C111_entries_are_answers); only what they give when they do not fail. Entries with room for so many are not covered. Assumes that a read sees each 8-byte link, which the sessions overwrite in place, as before or after that write. A new document with an unknown path makes the query panic (C85)."
  },
  {
   "property": "C112",
   "status": "proved",
   "theorems": [
    "C112_values",
    "C112_configs",
    "C112_one",
    "C112_read",
    "C112_written",
    "C112_again",
    "C112_extract",
    "C112_inspect"
   ],
   "note": "The reader of Model/Json agrees with the grammar of RFC 8259 and the rules for the configuration record in Spec/JsonText, for all files that are UTF-8. Accepting a configuration also needs its check (C38), whose product wraps around."
  },
  {
   "property": "C113",
   "status": "proved",
   "theorems": [
    "C113_get",
    "C113_inspect",
    "C113_extract",
    "C113_like",
    "C113_unblot"
   ],
   "note": "Sessions in which every document is added once and the index is closed (histories); like under all_in_place, files as they were when added; unblot when every document's file is missing or can be read (readable). extract as in C46, with enough fuel."
  },
  {
   "property": "C114",
   "status": "proved",
   "theorems": [
    "C114_size",
    "C114_text"
   ],
   "note": "All histories. C114_size: exact length of the document records, bounds for the path names, the tables and the posting files in terms of the documents, the nodes of the tree of paths and the pairs of a document and a blot; C114_text: posting files against the length of the text."
  },
  {
   "property": "C115",
   "status": "proved",
   "theorems": [
    "C115_nothing_added",
    "C115_files",
    "C115_records",
    "C115_configuration"
   ],
   "note": "All pairs of histories with the same blotter and number of shards, all schedules. C115_nothing_added: a session without documents; C115_files: all files but the configuration; C115_records: the records of documents and paths for any division into sessions; C115_configuration: Close writes the configuration over itself (all configurations)."
  },
  {
   "property": "C116",
   "status": "partial",
   "theorems": [
    "C116_options",
    "C116_exit",
    "C116_makes",
    "C116_seqlen_refuted",
    "C116_fails",
    "C116_negative_refuted",
    "C116_no_file_refuted",
    "C116_index_partial"
   ],
   "note": "REFUTED: with any -s but 10 dupenron ends with status 1 and makes no index (C116_seqlen_refuted); without a file, or with one that is not there, it leaves an index that cannot be opened and keeps it from being made (C116_no_file_refuted). Proved: which argument lists are accepted and with which values, when an index is made and where, and for files of records of two fields the index, its answers and the counts printed. Not in the model: a lock that is held, workers that panic (-n 0), the agent beyond that it starts or not, 65536 shards or more in C116_index_partial, roots that are not UTF-8 there."
  },
  {
   "property": "C117",
   "status": "partial",
   "theorems": [
    "C117_post",
    "C117_post_partial",
    "C117_post_refuted",
    "C117_token",
    "C117_paths"
   ],
   "note": "REFUTED: the text of a post has only the lower 16 bits of its blot, so different posts may look the same (C117_post_refuted, for any two such posts); they do exactly when document and these bits agree (C117_post_partial). Tokens with positions below 2^32 all look different (C117_token). The lines of a path set are proved for any paths added to a new one, with room in uint32 (C117_paths); that no two lines agree is not claimed."
  },
  {
   "property": "C118",
   "status": "partial",
   "theorems": [
    "C118_in_turn_partial",
    "C118_earlier_partial",
    "C118_known_partial",
    "C118_other_path_refuted",
    "C118_ends_refuted"
   ],
   "note": "REFUTED: whatever was added before, two goroutines adding a new name each can get the same number, with the path of the second (C118_other_path_refuted), and one of two goroutines can panic on a slice another has shortened (C118_ends_refuted). Proved: calls that do not overlap get the numbers of the sequential model and their own paths (C118_in_turn_partial), in every interleaving the numbers given before keep their paths (C118_earlier_partial), and calls for paths that are there already end with the right numbers in every interleaving (C118_known_partial). Sequentially consistent, one access to the slice, an element or a map per step; maps do not throw."
  },
  {
   "property": "C119",
   "status": "partial",
   "theorems": [
    "C119_sizes_partial",
    "C119_filter_partial",
    "C119_all_reported_refuted"
   ],
   "note": "REFUTED: for rates above the root of 1/2 Estimate gives 0 hashes, and such a filter reports everything (C119_all_reported_refuted: |ln fpr| + 4.084 / n up to 0.34657359027). Proved: the sizes up to rounding of float64 (C119_sizes_partial), and for |ln fpr| from 0.34657359028 on at least one hash and a filter that works (C119_filter_partial); n from 1 to 2^40, |ln fpr| from 2^-40 to 1024. math.Log is a parameter; between the two bounds, so for rates above the root of 1/2 and few elements, nothing is said."
  },
  {
   "property": "C120",
   "status": "partial",
   "theorems": [
    "C120_in_turn_partial",
    "C120_other_file_refuted",
    "C120_earlier_partial",
    "C120_known_partial"
   ],
   "note": "REFUTED: two documents of new files in known directories, added at a time, can both be recorded with the path of the second (C120_other_file_refuted), though their numbers differ. Proved: calls that do not overlap get records with their start, end and own path, as in the sequential model (C120_in_turn_partial). For every interleaving: what is in the dmd file keeps its record and path (C120_earlier_partial), and documents of files that are there already are recorded with the right path number (C120_known_partial). Steps as in C97 and C118."
  },
  {
   "property": "C121",
   "status": "partial",
   "theorems": [
    "C121_in_turn_partial",
    "C121_apart_refuted",
    "C121_sound_partial",
    "C121_twice_refuted",
    "C121_lost_document_refuted"
   ],
   "note": "REFUTED: on every index where a blot has two documents, two goroutines sharing a new Query can take its first blot apart: one gets the first document alone and drops it, the other gets the rest, and drops it too if it is one document; the place of the blot is passed (C121_apart_refuted; C121_lost_document_refuted for an index made from five documents). On every index of one shard with two such blots, two of three goroutines can get the same blot with the same documents (C121_twice_refuted). Proved: calls that do not overlap give what one goroutine gets with them (C121_in_turn_partial); of every interleaving, that no call fails, and that each blot given has two documents or more in the index and comes with two or more of them, each once and in their order (C121_sound_partial)."
  }
 ]
}