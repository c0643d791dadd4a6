{
 "claims": [
  {
   "property": "C01",
   "status": "proved",
   "theorems": [
    "C01_print_parse",
    "C01_write_parse",
    "C01_parse_exact",
    "C01_parse_in_range",
    "C01_out_of_range_accepted_refuted"
   ],
   "note": "Print/parse round trip for every address; exact language of accepted texts. Finding (C01_out_of_range_accepted_refuted): numbers above 65535 are accepted and wrap."
  },
  {
   "property": "C02",
   "status": "proved",
   "theorems": [
    "C02_total_order_on_known_zones",
    "C02_lt4d_strict_total",
    "C02_equality_with_unknown_zone",
    "C02_antisymmetric",
    "C02_zone0_transitivity_refuted"
   ],
   "note": "Strict total order on addresses with known zones, antisymmetry for all. Finding (C02_zone0_transitivity_refuted): with unknown zones equality is not transitive, so the order claim is for known zones."
  },
  {
   "property": "C03",
   "status": "proved",
   "theorems": [
    "C03_component_match",
    "C03_pattern_match",
    "C03_pattern2d_match",
    "C03_literal_component",
    "C03_parse_forms",
    "C03_parse_rejects_other_characters",
    "C03_print_parse",
    "C03_components_fit",
    "C03_uninitialised_read",
    "C03_empty_component_refuted"
   ],
   "note": "Matching and parsing of patterns. Findings: uninitialised memory read for exactly characterised inputs, empty components repeat the previous one."
  },
  {
   "property": "C04",
   "status": "proved",
   "theorems": [
    "C04_expand_components",
    "C04_expansion_matches_template",
    "C04_keyword_templates",
    "C04_keyword_fallback",
    "C04_print_parse",
    "C04_expand_in_range",
    "C04_partial_wildcard_refuted"
   ],
   "note": "Expansion proved for every template, keyword templates with and without nodelist answers, and the result matches the template when the destination's components match the template's wildcards. Finding (C04_partial_wildcard_refuted): without that guard the match is false of the code."
  },
  {
   "property": "C05",
   "status": "proved",
   "theorems": [
    "C05_written_form",
    "C05_write_then_read",
    "C05_fields_fit",
    "C05_line_of_words"
   ],
   "note": "Written form, read back, whole lines of words, every field the program writes fits the buffer."
  },
  {
   "property": "C06",
   "status": "proved",
   "theorems": [
    "C06_token_copy",
    "C06_rest_of_line_copy",
    "C06_string_copy",
    "C06_path_join",
    "C06_file_part",
    "C06_call_sites_refuted"
   ],
   "note": "Every copy helper stays inside a destination of the size it is told. Finding (C06_call_sites_refuted): three call sites pass a size larger than the buffer."
  },
  {
   "property": "C07",
   "status": "proved",
   "theorems": [
    "C07_match",
    "C07_no_wildcards"
   ],
   "note": "osMatchPattern decides exactly the shell style match of the specification."
  },
  {
   "property": "C08",
   "status": "proved",
   "theorems": [
    "C08_text_preserved",
    "C08_any_chunk_size"
   ],
   "note": "For every sequence of buffers and any chunk size."
  },
  {
   "property": "C09",
   "status": "proved",
   "theorems": [
    "C09_seenby_line",
    "C09_path_line",
    "C09_message",
    "C09_netmail_line",
    "C09_origin_address",
    "C09_unclosed_origin_refuted",
    "C09_unterminated_seenby_refuted"
   ],
   "note": "Whole messages of CR terminated lines, origin address, netmail lines. Findings: reading behind the end of an unclosed origin line and of an unterminated SEEN-BY: line."
  },
  {
   "property": "C10",
   "status": "proved",
   "theorems": [
    "C10_is_a_set",
    "C10_removed_by_pattern",
    "C10_remove_one_refuted"
   ],
   "note": "Refinement of a set over all operation sequences. Finding (C10_remove_one_refuted): mmRemNodes2DList does not remove."
  },
  {
   "property": "C11",
   "status": "proved",
   "theorems": [
    "C11_print_parse",
    "C11_read_any_form",
    "C11_read_total"
   ],
   "note": "Print then parse, line length, buffer size, all accepted line forms."
  },
  {
   "property": "C12",
   "status": "proved",
   "theorems": [
    "C12_sort",
    "C12_sort_again"
   ],
   "note": "Sorted permutation over blocks for every reachable list."
  },
  {
   "property": "C13",
   "status": "proved",
   "theorems": [
    "C13_header_roundtrip",
    "C13_header_exact",
    "C13_header_refuted",
    "C13_password_enforced",
    "C13_wrong_password_nothing",
    "C13_foreign_header",
    "C13_foreign_packet"
   ],
   "note": "Header round trip with the exact result for all addresses; headers of other programs (type 2+ and 2.2) and completion of their zones; packet password enforced for every packet body. Finding (C13_header_refuted): a point of net 65535 is read as net 0, and a sender without zone loses the destination's zone."
  },
  {
   "property": "C14",
   "status": "proved",
   "theorems": [
    "C14_packet_roundtrip",
    "C14_items_can_be_written",
    "C14_packets_hold_what_was_written",
    "C14_packet_size_limit",
    "C14_long_line_refuted",
    "C14_netmail_area_refuted"
   ],
   "note": "Any list of messages of the stated form, any handler; any sequence of writes with size limits. Findings: text lost from lines of more than 198 bytes, netmail that begins with AREA: read as echomail."
  },
  {
   "property": "C15",
   "status": "proved",
   "theorems": [
    "C15_always_ends",
    "C15_accepted_wellformed",
    "C15_truncated_never_accepted",
    "C15_undefined_only_by_a_line",
    "C15_defined_refuted",
    "C15_interrupt_refuted",
    "C15_quarantine"
   ],
   "note": "All byte strings: reading ends, acceptance implies well-formedness and delivery in order, truncation never accepted, quarantine keeps the file. Findings: undefined behaviour on a well-formed packet, interrupt quarantines a good packet."
  },
  {
   "property": "C16",
   "status": "proved",
   "theorems": [
    "C16_sliding_window",
    "C16_repeat_detected",
    "C16_no_false_alarm",
    "C16_8bit_refuted",
    "C16_size0_refuted"
   ],
   "note": "The database refines an abstract sliding window of the last DUPESIZE keys, for every sequence of fewer than 2^24 checks with 7-bit MSGIDs. Restrictions are findings: 8-bit MSGIDs index outside the CRC table and DUPESIZE 0 writes outside the index (refuted theorems)."
  },
  {
   "property": "C17",
   "status": "proved",
   "theorems": [
    "C17_restarts_invisible",
    "C17_opened_iff_wellformed",
    "C17_cut_record_rejected",
    "C17_stray_byte_refuted",
    "C17_close_crash_points",
    "C17_close_crash_refuted",
    "C17_large_refuted"
   ],
   "note": "Restarts and kills between messages are invisible for database sizes up to 65536; exact characterisation of accepted files; crash points of closing. Findings as refuted theorems: crash between delete and rename loses the window, a stray byte is accepted, databases above 65536 entries lose messages on restart."
  },
  {
   "property": "C18",
   "status": "proved",
   "theorems": [
    "C18_authorised",
    "C18_refused_is_kept",
    "C18_unknown_area",
    "C18_no_bad_area_refuted"
   ],
   "note": "Every input state and message: effects other than one BAD import imply a confirmed area and a sender linked for writing (or a waived check); refused messages are kept in BAD; unknown areas are only activated for AUTOADD nodes. The filter is an arbitrary function. Finding: without a BAD area the message is lost."
  },
  {
   "property": "C19",
   "status": "proved",
   "theorems": [
    "C19_recipients",
    "C19_at_most_once",
    "C19_rescanned",
    "C19_new_area_links",
    "C19_stale_seenby_refuted"
   ],
   "note": "The list of nodes a message is written to equals the list of wanted links, for every configuration, SEEN-BY and PATH; at most once, never back to the sender; rescanned messages go to nobody. Proved for filters that let messages pass unchanged. Finding: AREA_IGNORESEENBY with CHECKSEENBY uses stale marks of an earlier message."
  },
  {
   "property": "C20",
   "status": "proved",
   "theorems": [
    "C20_copies",
    "C20_any_path"
   ],
   "note": "Exact content of every copy sent: header, AREA line, text, SEEN-BY set per node kind (full, tiny, none), PATH addresses preserved in order with the own address appended at most once. Paths of any content are handled without overflow."
  },
  {
   "property": "C21",
   "status": "proved",
   "theorems": [
    "C21_duplicate_dropped",
    "C21_history",
    "C21_area_case_refuted"
   ],
   "note": "Over all histories starting with an empty database: after an accepted message, the same MSGID and area has no effect but BAD within DUPESIZE further messages. Finding: the area name's case defeats the check."
  },
  {
   "property": "C22",
   "status": "proved",
   "theorems": [
    "C22_text",
    "C22_roundtrip",
    "C22_received",
    "C22_other_zone_refuted",
    "C22_remap",
    "C22_remap_last_line_refuted"
   ],
   "note": "Writer and reader are proved inverse for all addresses and all further lines, for newly made and remapped messages and for messages received in packets. Findings: same-zone mail in a packet from another zone is misread (C22_other_zone_refuted); the REMAP note lacks its line end (C22_remap_last_line_refuted)."
  },
  {
   "property": "C23",
   "status": "proved",
   "theorems": [
    "C23_zones",
    "C23_sent",
    "C23_unroutable",
    "C23_bounced",
    "C23_dropped_refuted",
    "C23_via_line_refuted"
   ],
   "note": "Exact list of effects for every configuration without filters: routed, unroutable and bounced messages (attached files: see C74). Findings: a bounced message whose writer cannot be reached is lost silently (C23_dropped_refuted); the Via line is glued to texts of several chunks without final CR (C23_via_line_refuted)."
  },
  {
   "property": "C24",
   "status": "proved",
   "theorems": [
    "C24_generated_creates_nothing",
    "C24_created",
    "C24_depth",
    "C24_receipt_refuted"
   ],
   "note": "For every configuration, filters included; AreaFix is an arbitrary function that marks its replies. Finding: receipts are not marked, so that a receipt can be bounced once (C24_receipt_refuted)."
  },
  {
   "property": "C25",
   "status": "proved",
   "theorems": [
    "C25_main_domain",
    "C25_other_domains",
    "C25_domains_apart",
    "C25_fits",
    "C25_files_apart",
    "C25_zones_refuted"
   ],
   "note": "Base names of different nodes differ for all configurations and nodes of the main domain, of different foreign domains, and within a foreign domain for nodes that differ in net, node or point; lengths and file suffixes. Finding (C25_zones_refuted): two zones of one foreign domain share files."
  },
  {
   "property": "C26",
   "status": "proved",
   "theorems": [
    "C26_choice",
    "C26_rule",
    "C26_history",
    "C26_index",
    "C26_duplicates",
    "C26_index_refuted",
    "C26_overflow_refuted"
   ],
   "note": "All directory contents, histories and clocks: the name chosen is the node's last or new, numbers of different nodes differ throughout every history, exact rule of succession, index written and read back. Findings: an index edited by hand leads to a read before a string (C26_index_refuted); every new name writes one byte behind LastArcName (C26_overflow_refuted)."
  },
  {
   "property": "C27",
   "status": "proved",
   "theorems": [
    "C27_add",
    "C27_history",
    "C27_attach",
    "C27_orphan",
    "C27_unterminated_refuted",
    "C27_sent_refuted",
    "C27_eight_bit_refuted"
   ],
   "note": "All flow files of complete lines and all histories of additions; orphaned bundles. Findings: a last line without line end (C27_unterminated_refuted), entries already marked as sent (C27_sent_refuted) and names with 8 bit characters (C27_eight_bit_refuted) are mishandled."
  },
  {
   "property": "C28",
   "status": "proved",
   "theorems": [
    "C28_merge",
    "C28_merge_all",
    "C28_received",
    "C28_packfile",
    "C28_busy",
    "C28_empty_refuted",
    "C28_header_refuted"
   ],
   "note": "For every packet that waits and every number of new packets; effect on all files; what a receiver reads. Writes succeed. Findings: an empty packet that waits loses its header (C28_empty_refuted); packets of different own addresses share one header (C28_header_refuted)."
  },
  {
   "property": "C29",
   "status": "proved",
   "theorems": [
    "C29_inbound",
    "C29_archived",
    "C29_run",
    "C29_unreadable_refuted",
    "C29_longdir_refuted",
    "C29_archive_failed_refuted",
    "C29_oldpacket_refuted"
   ],
   "note": "All runs, directory orders, message handlers, packers and crash points (between steps, within a write, within a program). The packets the handler wrote stand for the mail of the inbound; directories short enough for the buffers and archiving that reports success are hypotheses, and their failure is shown to lose mail: C29_unreadable_refuted, C29_longdir_refuted, C29_archive_failed_refuted, C29_oldpacket_refuted."
  },
  {
   "property": "C30",
   "status": "proved",
   "theorems": [
    "C30_password",
    "C30_unknown",
    "C30_wrong",
    "C30_no_password"
   ],
   "note": "C30_password: for every request, configuration and state with no authorised sender, AreaFix succeeds, areas and nodes are unchanged and at most one reply is sent; C30_unknown and C30_wrong give the two ways of being unauthorised. C30_no_password shows that a node without AreaFix password needs only an empty subject. Zone 0 counts as any zone, as in the program's address comparison."
  },
  {
   "property": "C31",
   "status": "proved",
   "theorems": [
    "C31_rights",
    "C31_others",
    "C31_add",
    "C31_remove",
    "C31_remove_total",
    "C31_update",
    "C31_pause",
    "C31_rescan",
    "C31_lines",
    "C31_readonly_refuted",
    "C31_long_refuted",
    "C31_split_refuted",
    "C31_notice_refuted"
   ],
   "note": "C31_rights: for every request and state, the areas afterwards are those before, each kept with the others' links or vanished under the stated conditions, followed by forwarded areas; of the nodes only passive flag, AreaFix password and packer of the sender change. C31_add/C31_remove/C31_update: exact effect of a line; C31_lines: text of one chunk. Findings: C31_readonly_refuted (a forwarded area ignores its own read-only default), C31_long_refuted (lines of 100 characters overrun a buffer), C31_split_refuted (a line across two text chunks is read as two commands), C31_notice_refuted (notice buffer overrun for long tags). New areas are linked to other nodes as for any auto-added area."
  },
  {
   "property": "C32",
   "status": "proved",
   "theorems": [
    "C32_value",
    "C32_terminates",
    "C32_missing_operator",
    "C32_missing_operand",
    "C32_unmatched",
    "C32_not_group_refuted",
    "C32_left_to_right_refuted",
    "C32_trailing_junk_refuted",
    "C32_quoted_parenthesis_refuted"
   ],
   "note": "Every expression of the grammar has the value of the specification, whatever the statements evaluate to; evaluation always ends; missing operands, operators and parentheses are errors. Findings as refuted theorems: NOT before a parenthesis or an operator, right-to-left grouping, trailing text ignored, parenthesis inside quotes."
  },
  {
   "property": "C33",
   "status": "proved",
   "theorems": [
    "C33_sound",
    "C33_ends",
    "C33_first",
    "C33_exact",
    "C33_unique",
    "C33_first_refuted",
    "C33_eightbit_refuted",
    "C33_lines_stay_whole",
    "C33_text_filter"
   ],
   "note": "Sound for all inputs, ends for all 7-bit inputs. C33_exact: the strings the search can miss are exactly those with a blind spot (S_Filter.blindspot); C33_first: all others are found at their first occurrence, up to the TEXT and KLUDGES filters over messages in lines (C33_text_filter). Findings: abb is not found in aabb, aba not in xxaba; 8-bit text or patterns index outside the table."
  },
  {
   "property": "C34",
   "status": "proved",
   "theorems": [
    "C34_no_rule_applies",
    "C34_kill_is_final",
    "C34_in_order",
    "C34_malformed_rule_refuted",
    "C34_copy",
    "C34_exactly_the_commands"
   ],
   "note": "For every rule list and message: exactly the commands of the rules that apply are carried out, in configuration order, up to the first KILL; killing is final; no applicable rule means no change; COPY leaves the message alone. The effects of the message base, bounce and programs are arbitrary functions. Findings: a rule that cannot be evaluated ends filtering silently, and a failed COPY leaves the AREA line in the message (second part of C34_copy)."
  },
  {
   "property": "C35",
   "status": "proved",
   "theorems": [
    "C35_import",
    "C35_found",
    "C35_run"
   ],
   "note": "C35_import: for every state, message and result of writing, the file used did not exist and no other file changes; on success it holds the message. C35_found: a number is found unless 2^32 files exist. C35_run: runs of imports use numbers above all there were."
  },
  {
   "property": "C36",
   "status": "proved",
   "theorems": [
    "C36_scan",
    "C36_once",
    "C36_only_waiting",
    "C36_mark_exists",
    "C36_posted",
    "C36_ends",
    "C36_endless_refuted",
    "C36_stale_mark_refuted",
    "C36_unmarked_refuted",
    "C36_writeback_refuted"
   ],
   "note": "C36_scan: exact set, order, contents and effect of a complete scan for every directory and handler (imports meanwhile included). C36_once: over every later history. C36_only_waiting: also for scans that fail. C36_mark_exists and C36_posted: the high water mark. C36_ends: scans end. Hypotheses: numbers stay below 2^32-1, writing succeeds where stated. Findings: C36_endless_refuted (file 4294967295.msg: endless scan), C36_stale_mark_refuted (a high water mark of a removed message hides new messages), C36_unmarked_refuted (failure to mark is not noticed, message exported twice), C36_writeback_refuted (WRITEBACK on a full disk destroys the message and reports success)."
  },
  {
   "property": "C37",
   "status": "proved",
   "theorems": [
    "C37_history",
    "C37_added",
    "C37_failed",
    "C37_torn_refuted",
    "C37_longname_refuted"
   ],
   "note": "C37_history: every history of additions, empty additions, header changes and deletions of a base made by the library reads as the list of slots. C37_added: the new message and all others. C37_failed: whatever writes fail, the old messages stay readable and a reported success is one. Sizes: the files stay below 4 GB, receiver names up to 100 bytes. Findings: C37_torn_refuted (a torn index write makes later messages unreadable), C37_longname_refuted (receiver names over 100 bytes overflow)."
  },
  {
   "property": "C38",
   "status": "proved",
   "theorems": [
    "C38_active",
    "C38_undelete_refuted"
   ],
   "note": "C38_active, for histories in which no message marked as deleted is brought back. Finding: C38_undelete_refuted."
  },
  {
   "property": "C39",
   "status": "proved",
   "theorems": [
    "C39_pack",
    "C39_same",
    "C39_crash_refuted",
    "C39_lastread"
   ],
   "note": "C39_pack, for all bases the library makes (without undeleting), alone or behind maintenance; C39_same: a message the library numbered is copied unchanged. C39_lastread: the lastread records are kept. Writes succeed. Findings: C39_crash_refuted (stopping between the renames shows wrong messages)."
  },
  {
   "property": "C40",
   "status": "proved",
   "theorems": [
    "C40_maintenance",
    "C40_interrupted",
    "C40_order",
    "C40_mark",
    "C40_mark_exists",
    "C40_ages",
    "C40_same_number_refuted",
    "C40_future_refuted",
    "C40_interrupted_mark_refuted",
    "C40_stale_mark_refuted",
    "C40_huge_refuted"
   ],
   "note": "C40_maintenance: for every directory with the usual names, limits and qsort: exactly the surplus and the outdated messages go, the rest keep contents and order, consecutive numbers from 2 with PACK, no other file is touched. C40_interrupted, C40_order: at every stopping point no message that stays is lost. C40_mark, C40_mark_exists: the high water mark follows its message. C40_ages. Findings: C40_same_number_refuted (2.msg and 02.msg: PACK overwrites a message), C40_future_refuted (files from the future are deleted), C40_interrupted_mark_refuted, C40_stale_mark_refuted (the mark can be left wrong), C40_huge_refuted (NULL pointer)."
  },
  {
   "property": "C41",
   "status": "proved",
   "theorems": [
    "C41_crc32",
    "C41_case",
    "C41_signed_refuted"
   ],
   "note": "C41_crc32: with unsigned char the table-driven checksum is the bitwise CRC-32 of the lower-cased bytes; C41_case: it does not depend on case. Finding C41_signed_refuted: the parameter is a plain char, so where char is signed the first step reads in front of the table."
  },
  {
   "property": "C42",
   "status": "proved",
   "theorems": [
    "C42_link",
    "C42_limit_refuted",
    "C42_self_refuted",
    "C42_hole_refuted"
   ],
   "note": "C42_link: on every base the library makes, linking changes only the link fields, keeps old links, links exactly to messages referred to, links every reply if it or its parent is new, and, where each chain is complete, puts new replies to the ends of the chains, up to 1002 replies to a message. Locking is not modelled. Findings: C42_limit_refuted (more than 1002 replies), C42_self_refuted (with quick linking a message without MSGID is a reply to itself), C42_hole_refuted (a removed reply breaks the chain)."
  },
  {
   "property": "C43",
   "status": "proved",
   "theorems": [
    "C43_roundtrip",
    "C43_cut",
    "C43_foreign",
    "C43_interrupted_refuted",
    "C43_damaged_refuted",
    "C43_history",
    "C43_totals"
   ],
   "note": "C43_roundtrip: what was written is read back for every area and node of the configuration, whatever the order. C43_cut: a file cut off behind the identification brings no wrong numbers. C43_foreign: other files are refused. C43_totals: texts, duplicates, first and last time of every area over any history. C43_history: over any history of runs in the order of time the eight counters are the texts of the last eight days. Findings: C43_interrupted_refuted (an empty file stops the next run), C43_damaged_refuted (cut files are accepted, so \"damaged files are rejected\" is false of the code)."
  },
  {
   "property": "C44",
   "status": "proved",
   "theorems": [
    "C44_prefs",
    "C44_find",
    "C44_node",
    "C44_newest",
    "C44_cut",
    "C44_null_refuted",
    "C44_long_refuted",
    "C44_nul_refuted",
    "C44_down_refuted",
    "C44_shorter_refuted"
   ],
   "note": "C44_find: for every set of nodelists with lines of at most 498 characters, every prefs file and every address other than 0:0/0.0, lookup in the index written gives region, hub and text of the first line for the address, or 'not found'. The meaning of lines is specified in S_Nl (says, latest). C44_node: the functions the mailer uses. C44_newest: the newest matching list is taken. C44_cut: an index cut off anywhere never gives a wrong answer. Findings: C44_null_refuted (0:0/0 is always found), C44_long_refuted, C44_nul_refuted, C44_down_refuted (points of a Down node are given to the node before), C44_shorter_refuted (FindList takes any shorter name)."
  },
  {
   "property": "C45",
   "status": "proved",
   "theorems": [
    "C45_reread",
    "C45_others_kept",
    "C45_lines_kept",
    "C45_unchanged",
    "C45_crash",
    "C45_order_refuted",
    "C45_longname_refuted",
    "C45_diskfull_refuted",
    "C45_noname_refuted"
   ],
   "note": "C45_reread: the new file read again is the configuration written, for every file of lines up to 3997 characters, every set of changes, removals and additions of areas and changes of nodes, where each changed block refers to what is defined above it and names fit the buffers. C45_others_kept: all other settings and comments, verbatim and in order. C45_lines_kept: every line outside the blocks of changed or removed areas and nodes, for all configurations. C45_unchanged. C45_crash: at every step the old text is under the name or the backup's name, the new one under the name or '.tmp'. Keywords that concern neither areas nor nodes are an arbitrary predicate. Findings: C45_order_refuted (a node defined below the area makes the new file unreadable), C45_longname_refuted (areas with names of 80 characters are lost), C45_diskfull_refuted (a full disk leaves a truncated file in place), C45_noname_refuted (a moment without a file of that name)."
  },
  {
   "property": "C46",
   "status": "proved",
   "theorems": [
    "C46_step",
    "C46_history",
    "C46_behind_refuted"
   ],
   "note": "C46_step/C46_history: every operation and every history of operations on the list in memory is the one on the sequence, and memory in use is exactly the list. C46_behind_refuted: jbFreeNum with the number of entries uses the NULL pointer."
  },
  {
   "property": "C47",
   "status": "proved",
   "theorems": [
    "C47_sorted",
    "C47_packets",
    "C47_bundles"
   ],
   "note": "C47_sorted: SortFEList, for any qsort that keeps the promise of the standard. C47_packets, C47_bundles: a whole run hands the packets to the handler, and the bundles to the unpacker, oldest first and each once."
  },
  {
   "property": "C48",
   "status": "proved",
   "theorems": [
    "C48_compare",
    "C48_detect",
    "C48_short_refuted",
    "C48_long_refuted"
   ],
   "note": "C48_compare, C48_detect. Findings: C48_short_refuted (short files compare with uninitialised memory), C48_long_refuted (patterns longer than the buffer)."
  },
  {
   "property": "C49",
   "status": "proved",
   "theorems": [
    "C49_name",
    "C49_names_apart",
    "C49_numbers",
    "C49_numbers_refuted"
   ],
   "note": "All packets and addresses; numbers for every sequence of clock readings and every set of existing names. Finding (C49_numbers_refuted): the 257th packet of a second takes a used number."
  },
  {
   "property": "C50",
   "status": "proved",
   "theorems": [
    "C50_exact",
    "C50_own",
    "C50_long_refuted"
   ],
   "note": "Exact characterisation for all texts and addresses. Finding (C50_long_refuted): own addresses of more than 19 characters are not recognised."
  },
  {
   "property": "C51",
   "status": "proved",
   "theorems": [
    "C51_maintenance",
    "C51_age",
    "C51_future_refuted"
   ],
   "note": "C51_maintenance: exactly the oldest above the number and those above the age. C51_age: for messages not dated in the future the age is today minus the day. Finding: C51_future_refuted (messages from the future are deleted)."
  },
  {
   "property": "C52",
   "status": "proved",
   "theorems": [
    "C52_rescan",
    "C52_echo_back",
    "C52_net_back"
   ],
   "note": "C52_rescan: exact set, order and contents, nothing changed. C52_echo_back, C52_net_back: round trip from import to rescan for all messages whose fields fit and whose text consists of whole lines. Attribute bits are reduced to those that may be passed on."
  },
  {
   "property": "C53",
   "status": "proved",
   "theorems": [
    "C53_scan",
    "C53_once",
    "C53_mark",
    "C53_complete",
    "C53_lock_refuted",
    "C53_stale_mark_refuted",
    "C53_damaged_refuted",
    "C53_flags_refuted",
    "C53_long_refuted",
    "C53_origin_refuted"
   ],
   "note": "C53_scan: exact set, order and effect of a complete scan for every base built by additions, deletions and changes and for every handler (imports meanwhile included). C53_once: over every later history. C53_mark: the high water mark never passes a waiting message. C53_complete: over all sessions a scan that succeeds leaves nothing waiting but what was imported meanwhile. Hypotheses: the base stays below 2^32 bytes, locking succeeds. Findings: C53_lock_refuted (lock failure after handing on: exported twice), C53_stale_mark_refuted (mark of a former base hides messages), C53_damaged_refuted (one unreadable text blocks the area), C53_flags_refuted (FLAGS line replaced by stale or uninitialised buffer), C53_long_refuted (fields of 200 bytes overflow), C53_origin_refuted (over-read in the origin line)."
  },
  {
   "property": "C54",
   "status": "proved",
   "theorems": [
    "C54_area",
    "C54_node"
   ],
   "note": "C54_area, C54_node: for all files, areas and nodes whose fields fit (echomail, default, BAD and local areas)."
  },
  {
   "property": "C55",
   "status": "proved",
   "theorems": [
    "C55_rescan",
    "C55_scan",
    "C55_back",
    "C55_usual",
    "C55_lines",
    "C55_cut_refuted",
    "C55_lone_refuted",
    "C55_newflags_refuted",
    "C55_empty_refuted",
    "C55_files_refuted",
    "C55_origin_refuted"
   ],
   "note": "C55_rescan: which messages a rescan hands on, in which order, what they say, and that nothing changes. C55_scan: the same for what a scan hands on (which messages is C53). C55_back: import followed by any later rescan. C55_usual: control lines in the usual form come back unchanged (others are cut to 99 characters and stripped). C55_lines: texts made line by line have the form C55_back asks for. Messages with a FLAGS line or with attributes that need one are not covered (C53_flags_refuted, C55_newflags_refuted)."
  },
  {
   "property": "C56",
   "status": "proved",
   "theorems": [
    "C56_map",
    "C56_others",
    "C56_user0_refuted",
    "C56_torn_refuted"
   ],
   "note": "C56_map over all histories and handles; C56_others. Findings: user 0 cannot get the first record of a file (C56_user0_refuted); behind a cut-off record, new records are lost (C56_torn_refuted)."
  },
  {
   "property": "C57",
   "status": "proved",
   "theorems": [
    "C57_accepted",
    "C57_refused",
    "C57_order",
    "C57_reads",
    "C57_novalue",
    "C57_programs",
    "C57_unknown",
    "C57_twice_refuted"
   ],
   "note": "C57_accepted and C57_refused decide every line that gives no argument twice (arguments that need no keyword but are given by one come before the free words); C57_reads, C57_novalue, C57_unknown cover all lines. Finding: an argument given twice silently loses the first value (C57_twice_refuted)."
  },
  {
   "property": "C58",
   "status": "proved",
   "theorems": [
    "C58_exclusion",
    "C58_release",
    "C58_held",
    "C58_lock",
    "C58_dupes",
    "C58_dupes_run",
    "C58_config",
    "C58_one",
    "C58_two",
    "C58_race_refuted",
    "C58_dupes_refuted",
    "C58_stale_refuted",
    "C58_long_refuted",
    "C58_ignored_refuted"
   ],
   "note": "C58_exclusion, C58_release, C58_lock, C58_held, C58_dupes, C58_dupes_run over all schedules; C58_one, C58_two for the actions, C58_config for the file read. Findings: looking for the lock file and creating it are two steps, so two runs can work at once (C58_race_refuted); the lock file is removed before the duplicate database is written, so ids get lost even without that race (C58_dupes_refuted); a killed run leaves its lock file (C58_stale_refuted); with a name of 100 or more characters the lock file stays for ever (C58_long_refuted); a second action on the command line is silently ignored (C58_ignored_refuted)."
  },
  {
   "property": "C59",
   "status": "proved",
   "theorems": [
    "C59_write",
    "C59_back",
    "C59_read",
    "C59_seadog",
    "C59_nomonth",
    "C59_calendar",
    "C59_inverse",
    "C59_system",
    "C59_jam",
    "C59_offset",
    "C59_seventies_refuted",
    "C59_summer_refuted",
    "C59_short_refuted"
   ],
   "note": "C59_write, C59_back, C59_read, C59_seadog, C59_nomonth for every localtime and mktime that agree (zone_ok); C59_calendar, C59_inverse, C59_system: the Gregorian calendar at any fixed offset is one of these. C59_jam, C59_offset for JAM. Findings: dates before 1980 come back a century later (C59_seventies_refuted); a message stored in winter and read in summer is an hour off (C59_summer_refuted); behind a short text old bytes of the buffer are read (C59_short_refuted)."
  },
  {
   "property": "C60",
   "status": "proved",
   "theorems": [
    "C60_orderly",
    "C60_lru",
    "C60_recent",
    "C60_served",
    "C60_keep",
    "C60_untouched",
    "C60_new",
    "C60_wiped_refuted",
    "C60_limit_refuted"
   ],
   "note": "C60_orderly, C60_lru, C60_recent for fewer than 2^32-1 requests in a run (the counter of uses has 32 bits); C60_served, C60_keep, C60_untouched, C60_new on the files. Findings: an area of which one file is missing or cannot be opened, be it only the lastread file, is made anew and all its messages are destroyed (C60_wiped_refuted); the same happens to complete bases, and then even without a usable base, when the process may not open more files (C60_limit_refuted)."
  },
  {
   "property": "C61",
   "status": "proved",
   "theorems": [
    "C61_scan",
    "C61_list",
    "C61_dotjam",
    "C61_area",
    "C61_long_refuted",
    "C61_accent_refuted"
   ],
   "note": "C61_scan, C61_list, C61_dotjam, C61_area; lines of the files have at most 98 characters and names end with a visible ASCII character. Findings: longer lines are taken for several lines, the rest of which can name an area (C61_long_refuted); an area whose name ends with a letter outside ASCII cannot be scanned by SCANLIST (C61_accent_refuted)."
  },
  {
   "property": "C62",
   "status": "proved",
   "theorems": [
    "C62_answers",
    "C62_unpack",
    "C62_near_refuted",
    "C62_hub_refuted",
    "C62_layout_refuted",
    "C62_corrupt_refuted"
   ],
   "note": "C62_answers, C62_unpack. Findings: chars are signed, so the hub and the region of a node whose place in the third file is below 65536 are never found (C62_near_refuted) and a hub like 200 comes out as another number (C62_hub_refuted); longs have 8 bytes on 64 bit Linux, 4 in the files, so that the usual lists cannot be read there (C62_layout_refuted); a damaged index makes the search endless or lets it read outside of the buffer (C62_corrupt_refuted)."
  },
  {
   "property": "C63",
   "status": "proved",
   "theorems": [
    "C63_netmail",
    "C63_echomail",
    "C63_files",
    "C63_refused",
    "C63_crlf_refuted",
    "C63_unfinished_refuted",
    "C63_nul_refuted"
   ],
   "note": "C63_netmail, C63_echomail, C63_files, C63_refused; the directory has at most 180 characters, the text no kludge lines (for echomail no SEEN-BY lines and no broken origin lines), the clock does not go back while a name is looked for. Findings: with carriage returns a line of 98 characters is followed by an empty line (C63_crlf_refuted), a text without final line feed runs into the tear line (C63_unfinished_refuted), the rest of a line behind a NUL is lost together with its end (C63_nul_refuted)."
  },
  {
   "property": "C64",
   "status": "proved",
   "theorems": [
    "C64_listed",
    "C64_refused",
    "C64_signs_refuted",
    "C64_dropped_refuted",
    "C64_overflow_refuted"
   ],
   "note": "C64_listed, C64_refused; at most 41 nodes for an area and one sign in front of an address; texts are compared up to the 79 characters CrashMail keeps. Findings: a node written with two signs is one CrashMail sends to but it is not listed (C64_signs_refuted); with 42 nodes the last can be dropped silently (C64_dropped_refuted) or the array of 1000 characters overflows (C64_overflow_refuted)."
  },
  {
   "property": "C65",
   "status": "proved",
   "theorems": [
    "C65_parts",
    "C65_list",
    "C65_undisclosed",
    "C65_sent",
    "C65_help",
    "C65_help_refuted",
    "C65_limit_refuted",
    "C65_remote",
    "C65_remote_refuted"
   ],
   "note": "C65_parts, C65_list, C65_undisclosed, C65_sent, C65_help, C65_remote. HandleMessage may change text and flags of a message but not its addresses and names; fewer than 32768 areas in a list; a node is in an area once; help lines of at most 98 characters that end in LF. Findings: the last line of a help file without a line end loses a character (C65_help_refuted); limits below five are not kept (C65_limit_refuted); a command for a system without a route reads through a null pointer (C65_remote_refuted). Banned areas are listed as available."
  },
  {
   "property": "C66",
   "status": "proved",
   "theorems": [
    "C66_list",
    "C66_command",
    "C66_own",
    "C66_unit_refuted",
    "C66_packets_refuted",
    "C66_remark_refuted",
    "C66_status_refuted",
    "C66_address_refuted"
   ],
   "note": "C66_list, C66_command, C66_own; the directory name has at most 80 characters, lines of flow files and requests at most 100, sizes below 2^32. Findings: sizes are always shown in megabytes, so that anything below one is 0M (C66_unit_refuted); packets that wait are not part of the sums (C66_packets_refuted); files to be deleted are said to be truncated (C66_remark_refuted); a directory that cannot be read gives the exit status of success (C66_status_refuted); long addresses are cut off (C66_address_refuted)."
  },
  {
   "property": "C67",
   "status": "proved",
   "theorems": [
    "C67_shown",
    "C67_missing",
    "C67_refused",
    "C67_empty_refuted",
    "C67_null_refuted",
    "C67_accent_refuted"
   ],
   "note": "C67_shown, C67_missing, C67_refused; lines of at most 198 characters, with no empty entries, that end with a visible ASCII character. Findings: empty entries are skipped, so that a sysop without a location is shown as the location (C67_empty_refuted); 0:0/0.0 is found in every index and the line printed for it was never read (C67_null_refuted); accented letters at the end of a line are lost (C67_accent_refuted)."
  },
  {
   "property": "C68",
   "status": "proved",
   "theorems": [
    "C68_report",
    "C68_refused",
    "C68_sizes_refuted",
    "C68_sums_refuted",
    "C68_negative_refuted",
    "C68_names_refuted",
    "C68_since_refuted",
    "C68_ties_refuted",
    "C68_emptysort_refuted"
   ],
   "note": "C68_report, C68_refused; counters below 2147483648, sums of a day below 65536, the last day after 1970-01-08. Findings: all sizes are shown in megabytes (C68_sizes_refuted); the sums of the days wrap at 65536 (C68_sums_refuted); large counters are negative (C68_negative_refuted); names are cut so that areas look alike (C68_names_refuted); with GROUP the first date is that of all areas (C68_since_refuted); areas with equal numbers need not be in order of names (C68_ties_refuted); an empty SORT word is accepted (C68_emptysort_refuted)"
  },
  {
   "property": "C69",
   "status": "proved",
   "theorems": [
    "C69_accepted",
    "C69_independent",
    "C69_filters",
    "C69_directories",
    "C69_long_refuted",
    "C69_masquerade_refuted",
    "C69_default_refuted",
    "C69_slash_refuted"
   ],
   "note": "C69_accepted (acceptance, the fault reported, no undefined behaviour), C69_independent, C69_filters, C69_directories; patterns have the component lengths the parser leaves and conditions a defined evaluation. Findings: a filter of more than 200 characters is accepted whatever it says, and then ends the filtering of every message (C69_long_refuted); the destination of MASQUERADE is not checked (C69_masquerade_refuted); whether the template may share a path depends on the order (C69_default_refuted); one directory written in two ways is not noticed (C69_slash_refuted)."
  },
  {
   "property": "C70",
   "status": "proved",
   "theorems": [
    "C70_rfc",
    "C70_msg",
    "C70_run",
    "C70_lines",
    "C70_shell_refuted",
    "C70_signal_refuted",
    "C70_unwritten_refuted",
    "C70_upper_refuted",
    "C70_control_refuted",
    "C70_longcontrol_refuted",
    "C70_header_refuted"
   ],
   "note": "C70_run (command line, files, what becomes of the message), C70_rfc and C70_msg (contents of the files), C70_lines; lines without LF and NUL, control lines of at most 77 characters, the temporary files can be written. Findings: text of messages goes into the command line unquoted, so that a message can run commands (C70_shell_refuted); a command killed by a signal counts as success and the message is lost (C70_signal_refuted), likewise when the file could not be written (C70_unwritten_refuted); %M has no file (C70_upper_refuted); a lone ^A at the end of a text makes the program read 4 GB of memory (C70_control_refuted); the rest of long control lines becomes text (C70_longcontrol_refuted); a line feed in the subject makes header lines (C70_header_refuted)."
  },
  {
   "property": "C71",
   "status": "proved",
   "theorems": [
    "C71_done",
    "C71_areas",
    "C71_others",
    "C71_nothing",
    "C71_keep_refuted",
    "C71_template_refuted",
    "C71_name_refuted",
    "C71_failed_refuted"
   ],
   "note": "C71_done (areas, order, settings, exit code), C71_areas, C71_others, C71_nothing; KEEPNUM and KEEPDAYS only for areas that hold messages, in at most 29 characters. Findings: KEEPNUM or KEEPDAYS of a pass-through area or of a template is applied to the area in front of it, whose messages are then deleted (C71_keep_refuted, C71_template_refuted); a netmail area named DEFAULT_... is never maintained (C71_name_refuted); an area that fails ends the work, so that those behind it are not maintained (C71_failed_refuted)."
  },
  {
   "property": "C72",
   "status": "proved",
   "theorems": [
    "C72_texts",
    "C72_numbers",
    "C72_switches",
    "C72_names",
    "C72_lists",
    "C72_filters",
    "C72_akas",
    "C72_base",
    "C72_keywords",
    "C72_accepted",
    "C72_domain_refuted",
    "C72_group_refuted",
    "C72_size_refuted"
   ],
   "note": "C72_texts, C72_numbers, C72_switches, C72_names, C72_lists, C72_filters, C72_akas, C72_keywords for every file that is accepted; C72_base connects it with the nodes, areas and packers of C45, C54, C64 and C71; C72_accepted for lines that need nothing above them (texts, numbers below 2^31, switches, AREAFIXNAME, FILEATTACH, BOUNCE, FILTER, comments). Findings: a DOMAIN of 20 characters or more overflows its array (C72_domain_refuted); GROUPNAME with an empty group writes before its array (C72_group_refuted); MAXPKTSIZE and MAXBUNDLESIZE from 2097152 overflow an int (C72_size_refuted)."
  },
  {
   "property": "C73",
   "status": "proved",
   "theorems": [
    "C73_total",
    "C73_area",
    "C73_template",
    "C73_path",
    "C73_inside",
    "C73_unique",
    "C73_unique_end",
    "C73_description",
    "C73_shared_refuted",
    "C73_name_refuted",
    "C73_accent_refuted"
   ],
   "note": "C73_area, C73_template, C73_path, C73_inside, C73_unique (one path with the number anywhere in it), C73_unique_end (several paths that end in the number), C73_description, C73_total; names shorter than 80 characters, expanded paths of at most 79 for the difference, files of descriptions in ASCII with lines of at most 197. Findings: without the number areas with different names share a path (C73_shared_refuted); AreaFix passes names of up to 99 characters, which overflow the name of the area (C73_name_refuted); a description loses a first letter that is not in ASCII (C73_accent_refuted)."
  },
  {
   "property": "C74",
   "status": "proved",
   "theorems": [
    "C74_copy",
    "C74_copy_done",
    "C74_copy_failed",
    "C74_move",
    "C74_move_done",
    "C74_inside",
    "C74_routed",
    "C74_exported",
    "C74_exported_done",
    "C74_overwrite_refuted",
    "C74_readerror_refuted",
    "C74_close_refuted",
    "C74_uncopied_refuted"
   ],
   "note": "C74_copy, C74_copy_done, C74_copy_failed, C74_move, C74_move_done, C74_inside (any failures), C74_routed, C74_exported, C74_exported_done; names of at most 79 characters without quotes, with different last parts, and reads and fclose that do not fail for completeness. Findings: a file of the same name waiting in the packet directory is overwritten (C74_overwrite_refuted); a read error is taken for the end of the file and the original is deleted (C74_readerror_refuted); a failing fclose is not noticed (C74_close_refuted); for mail written here the result of the copy is not looked at (C74_uncopied_refuted)."
  },
  {
   "property": "C75",
   "status": "proved",
   "theorems": [
    "C75_rescan",
    "C75_rescan_refused",
    "C75_copy",
    "C75_list_all",
    "C75_list_one",
    "C75_list_none",
    "C75_remove",
    "C75_remove_failed",
    "C75_unfinished_refuted",
    "C75_longname_refuted"
   ],
   "note": "C75_rescan, C75_rescan_refused, C75_copy, C75_list_all, C75_list_one, C75_list_none, C75_remove, C75_remove_failed; names of areas to remove of at most 55 characters. Findings: with an unknown node or area SENDLIST and REMOVE make the preparations and never conclude (C75_unfinished_refuted); longer names overflow the text of the notice (C75_longname_refuted)."
  },
  {
   "property": "C76",
   "status": "proved",
   "theorems": [
    "C76_info",
    "C76_access",
    "C76_noname_refuted"
   ],
   "note": "C76_info, C76_access. Finding: a group without a name is listed without a colon for full access but with one for read-only access, since the address of a name is tested and not the name (C76_noname_refuted)."
  },
  {
   "property": "C77",
   "status": "proved",
   "theorems": [
    "C77_file",
    "C77_syslog",
    "C77_indent",
    "C77_open",
    "C77_forged_refuted"
   ],
   "note": "C77_file, C77_syslog, C77_indent, C77_open; what printf makes of a format is an argument. Finding: a line end in a text from another system makes a line that cannot be told from a real one (C77_forged_refuted)."
  },
  {
   "property": "C78",
   "status": "proved",
   "theorems": [
    "C78_areas",
    "C78_unknown",
    "C78_answered",
    "C78_settings",
    "C78_message",
    "C78_sent",
    "C78_packers",
    "C78_rescanned",
    "C78_dialogue",
    "C78_resume_refuted",
    "C78_update_refuted"
   ],
   "note": "C78_answered, C78_areas, C78_unknown, C78_settings, C78_message, C78_sent, C78_packers, C78_rescanned, C78_dialogue (chunks of whole lines, the lines before any tear line); names of areas of at most 79 characters, of packers of at most 9. Findings: a node that pauses is told to send %%RESUME, which is an unknown command (C78_resume_refuted); an update without an option is answered twice, first that the area is rescanned and then that there is nothing to do (C78_update_refuted)."
  }
 ]
}