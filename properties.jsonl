{"id": "C01", "title": "4D addresses survive printing and parsing", "statement": "Printing any FidoNet address zone:net/node.point (each component 0..65535) and parsing the text again yields exactly the same address; whatever text is parsed, every component of a successful result is within 0..65535.", "quantifier": "all 2^64 addresses; all texts", "why_tests_cant": "the address space cannot be enumerated", "anchors": ["src/shared/node4d.c: Parse4DTemplate, Parse4D, Print4D"]}
{"id": "C02", "title": "Address comparison is a consistent order inside a zone-aware domain", "statement": "On addresses with non-zero zones, comparison is a total order (zero exactly on equal addresses, antisymmetric in sign, transitive). Zone 0 acts as a wildcard, so equality is only reflexive and symmetric there.", "quantifier": "all pairs and triples of addresses", "why_tests_cant": "needs all triples", "anchors": ["src/shared/node4d.c: Compare4D"]}
{"id": "C03", "title": "Node patterns match exactly the addresses the manual says", "statement": "A single pattern component matches a number iff its decimal text matches character by character, '?' standing for any one character and '*' for any remainder; a four component pattern matches iff all its components do, the zone component being ignored for addresses of unknown zone; ZONE/NET/NODE patterns match exactly the addresses of that zone/net/node.", "quantifier": "all patterns and addresses", "why_tests_cant": "infinitely many pattern strings", "anchors": ["src/crashmail/node4dpat.c: NodeCompare, Compare4DPat, Compare2DPat"]}
{"id": "C04", "title": "Route destination templates expand to an address that agrees with the template", "statement": "Expanding a destination template against a destination keeps every literal component of the template and copies every wildcard component from the destination, so the result matches the template whenever the destination matches its wildcards; keyword templates send to the zone, region, net, hub or boss node.", "quantifier": "all templates and destinations", "why_tests_cant": "infinite product space", "anchors": ["src/crashmail/node4dpat.c: ExpandNodePat, Print4DDestPat, Parse4DDestPat"]}
{"id": "C05", "title": "Quoted configuration strings survive rewriting", "statement": "A string written to the configuration file in quoted form and read back with the configuration tokenizer is unchanged, and reading stops exactly after the closing quote, for every string that fits the reader's field and contains no line feed or NUL.", "quantifier": "all strings, all following text, all field sizes", "why_tests_cant": "unbounded strings with arbitrary quotes and backslashes", "anchors": ["src/crashmail/config.c: WriteSafely", "src/shared/jbstrcpy.c: jbstrcpy"]}
{"id": "C06", "title": "Token and copy helpers never write past the destination", "statement": "Copying a token, a rest-of-line, a bounded string or joining a path into a buffer of size n writes at most n bytes including the terminator and always terminates the result, for every input.", "quantifier": "all inputs and all sizes n>=1", "why_tests_cant": "overflows show only on particular lengths", "anchors": ["src/shared/jbstrcpy.c", "src/shared/mystrncpy.c", "src/shared/path.c: MakeFullPath"]}
{"id": "C07", "title": "File patterns match case-insensitively with ? and trailing *", "statement": "A pattern matches a name iff, ignoring case, the name is the pattern with every '?' replaced by one character up to the first '*', where any remainder is accepted.", "quantifier": "all patterns and names", "why_tests_cant": "infinitely many strings", "anchors": ["src/oslib_linux/ospattern.c: osMatchPattern"]}
{"id": "C08", "title": "Message text is preserved byte for byte in memory", "statement": "Appending any sequence of buffers to a message keeps the concatenation of all stored chunks equal to the concatenation of the buffers, in order, no chunk exceeds its fixed size, and the append loop terminates.", "quantifier": "all sequences of buffers of any length", "why_tests_cant": "chunk boundaries depend on lengths and carriage return positions", "anchors": ["src/crashmail/memmessage.c: mmAddBuf"]}
{"id": "C09", "title": "Incoming lines are classified without loss", "statement": "For an echomail message every line is either recorded as SEEN-BY entries, recorded as a PATH line, or stored in the text unchanged; SEEN-BY and PATH lines are never stored as text and every other line always is.", "quantifier": "all lines", "why_tests_cant": "unbounded line contents", "anchors": ["src/crashmail/memmessage.c: mmAddLine, AddSeenby, mmAddPath"]}
{"id": "C10", "title": "SEEN-BY is a set", "statement": "After any sequence of additions a SEEN-BY list contains exactly the added net/node pairs, each once; entries can be removed by pattern and then no matching address remains.", "quantifier": "all operation sequences", "why_tests_cant": "order and block boundaries vary without bound", "anchors": ["src/crashmail/memmessage.c: mmAddNodes2DList, mmRemNodes2DListPat, mmRemNodes2DList"]}
{"id": "C11", "title": "SEEN-BY lines round trip and fit the line limit", "statement": "Printing any SEEN-BY list to SEEN-BY lines and parsing these lines gives the same set of addresses; no line is longer than 79 characters and the output always fits the buffer the program allocates for it.", "quantifier": "all lists of net/node pairs of any length", "why_tests_cant": "line breaks depend on digit counts and shared nets", "anchors": ["src/crashmail/memmessage.c: mmMakeSeenByBuf, AddSeenby, mmSortNodes2D", "src/crashmail/pkt.c: WriteSeenBy"]}
{"id": "C12", "title": "SEEN-BY sorting only reorders", "statement": "Sorting a SEEN-BY list gives a list sorted by net then node that contains exactly the same entries with the same multiplicities, across block boundaries.", "quantifier": "all lists", "why_tests_cant": "unbounded lists", "anchors": ["src/crashmail/memmessage.c: mmSortNodes2D"]}
{"id": "C13", "title": "Packet header addressing round trips", "statement": "The originating and destination addresses and the password written into a new packet header are the ones recovered when the same header is read back, for zones, nets, nodes and points; the known exception (origin net 65535 of a point) is characterised exactly.", "quantifier": "all pairs of 4D addresses", "why_tests_cant": "2^128 combinations; three header dialects", "anchors": ["src/crashmail/pkt.c: CreatePkt, ReadPkt, getuword, putuword"]}
{"id": "C14", "title": "A packet written by the program is read back as the same messages", "statement": "Writing any sequence of messages (header fields, text, SEEN-BY and PATH) as a packet and reading the packet yields the same sequence of messages with the same header fields and the same text, and the reader reports success.", "quantifier": "all message lists whose fields respect the protocol's field sizes", "why_tests_cant": "unbounded lists and texts", "anchors": ["src/crashmail/pkt.c: WriteMsgHeader, WriteEchoMail, WriteNetMail, FinishPacket, ReadPkt, ReadNull, ReadCR"]}
{"id": "C15", "title": "Reading a packet always ends in success or quarantine", "statement": "For every byte sequence the packet reader terminates, and either accepts the packet or moves it aside as bad without deleting it; it never accepts a truncated packet.", "quantifier": "all byte sequences", "why_tests_cant": "arbitrary malformed input", "anchors": ["src/crashmail/pkt.c: ReadPkt"]}
{"id": "C16", "title": "Duplicate detection is an exact sliding window", "statement": "A message is reported as a duplicate iff a message with the same MSGID in the same area (both exact) was recorded among the last N recorded messages, N being the configured database size; otherwise it is recorded, displacing the oldest.", "quantifier": "all histories of checks and all N with 1 <= N <= 65536", "why_tests_cant": "depends on unbounded histories", "anchors": ["src/crashmail/dupe.c: CheckDupe, AddDupe, copydupe"]}
{"id": "C17", "title": "The duplicate database survives restarts and rejects damage", "statement": "Closing and reopening the duplicate database (same configured size) gives the same future answers; a file with a wrong identifier, an over-long or zero-length record or a truncated record is rejected instead of being misread.", "quantifier": "all histories and all file contents", "why_tests_cant": "needs all histories and damages", "anchors": ["src/crashmail/dupe.c: OpenDupeDB, CloseDupeDB"]}
{"id": "C18", "title": "Echomail is accepted only from authorised nodes", "statement": "A tossed echomail message is stored in the area and forwarded only if the area is confirmed and the sending node is linked to it with write permission (or security is explicitly waived); otherwise the only effect is storage in the BAD area, and nothing is forwarded.", "quantifier": "all configurations, areas and messages", "why_tests_cant": "combinatorial configuration space", "anchors": ["src/crashmail/handle.c: HandleEchomail"]}
{"id": "C19", "title": "Echomail goes to exactly the right links, once", "statement": "An accepted message is sent exactly once to each linked node that is not the sender, not passive, not write-only and not already in the incoming SEEN-BY list (when that check is enabled), and to nobody else; rescanned messages are sent to nobody.", "quantifier": "all areas, link lists and SEEN-BY lists", "why_tests_cant": "unbounded link lists", "anchors": ["src/crashmail/handle.c: HandleEchomail, HandleRescan"]}
{"id": "C20", "title": "Forwarded echomail lists its recipients in SEEN-BY and this node last in PATH", "statement": "The SEEN-BY of every forwarded copy contains all incoming entries, every active link and this node's own address, and the PATH ends with this node.", "quantifier": "all messages and areas", "why_tests_cant": "unbounded lists", "anchors": ["src/crashmail/handle.c: HandleEchomail, AddNodePath"]}
{"id": "C21", "title": "Duplicates never reach an area or a link", "statement": "With duplicate checking enabled, a message detected as duplicate is neither imported into its area nor forwarded; it is ignored, stored in BAD or dropped as configured.", "quantifier": "all configurations and histories", "why_tests_cant": "histories are unbounded", "anchors": ["src/crashmail/handle.c: HandleEchomail", "src/crashmail/dupe.c: CheckDupe"]}
{"id": "C22", "title": "Netmail addressing kludges round trip", "statement": "The INTL, FMPT and TOPT kludge lines generated for a netmail make any reader that starts from the two-dimensional header recover exactly the original four-dimensional addresses, whatever other lines follow, if the zones differ or INTL is forced; inside one zone the reader recovers everything but the zone, and the tosser itself recovers that too from a packet of the same zone. The same holds after a REMAP filter has readdressed the message.", "quantifier": "all address pairs", "why_tests_cant": "2^128 pairs", "anchors": ["src/crashmail/misc.c: MakeNetmailKludges", "src/crashmail/memmessage.c: ProcessKludge"]}
{"id": "C23", "title": "Netmail routing follows the first matching rule", "statement": "A netmail not addressed to this system is written for exactly one system, given by the first matching ROUTE statement, the message's priority and the last CHANGE statement that applies, with addresses, names, subject, date and text unchanged but for the Via line; it is stored as BAD when no route matches; and when it must be bounced (node not in the nodelist, unknown point, forbidden file attach) it is not sent but returned to its writer, unless it was generated or no route leads back.", "quantifier": "all route tables and destinations", "why_tests_cant": "unbounded tables", "anchors": ["src/crashmail/handle.c: HandleNetmail", "src/crashmail/node4dpat.c: ExpandNodePat"]}
{"id": "C24", "title": "Automatically generated netmail never triggers a bounce loop", "statement": "No message marked as generated (bounce, audit, AreaFix reply) makes the program create a further message, created messages never ask for receipts or audits, and therefore handling any message ends after at most three levels of created messages: there is no bounce loop.", "quantifier": "all message histories", "why_tests_cant": "loops are unbounded executions", "anchors": ["src/crashmail/handle.c: Bounce, HandleNetmail, AnswerReceipt"]}
{"id": "C25", "title": "Different nodes get different outbound files", "statement": "Two different addresses of the outbound's own domain never share an outbound base name, so mail for one system is never picked up by another.", "quantifier": "all pairs of addresses", "why_tests_cant": "2^128 pairs", "anchors": ["src/crashmail/outbound.c: MakeBaseName"]}
{"id": "C26", "title": "Choosing an archive name never destroys unsent mail", "statement": "The bundle chosen for a node's echomail is the one it used last or one that does not exist; two nodes never share a bundle, however the directory, the clock and the index change; a bundle that is present and not too big is used again (on the same day), an empty, missing or too big one is followed by the next name if that is free. The bundle index written to disk restores every node's last bundle.", "quantifier": "all directory states and node histories", "why_tests_cant": "unbounded directory states", "anchors": ["src/crashmail/outbound.c: MakeArcName, ExistsBundle"]}
{"id": "C27", "title": "Flow files list a file at most once and keep every other entry", "statement": "Adding a file to a flow file leaves all previous entries unchanged and in order, appends the file iff no entry already names it, and is idempotent.", "quantifier": "all flow file contents and names", "why_tests_cant": "unbounded file contents", "anchors": ["src/crashmail/outbound.c: doAddFlow"]}
{"id": "C28", "title": "Merging netmail into an existing packet keeps all messages", "statement": "Appending a new packet to an existing uncompressed packet for the same node gives a valid packet holding exactly the old messages followed by the new ones under the old header.", "quantifier": "all packets", "why_tests_cant": "unbounded packets", "anchors": ["src/crashmail/outbound.c: PackFile"]}
{"id": "C29", "title": "No mail is lost by a crash while tossing", "statement": "At every point of a toss run the mail of each inbound packet is still in the inbound packet or already in a finished outbound packet; inbound packets are deleted only after all outbound packets were written, finished and archived.", "quantifier": "all crash points of all runs", "why_tests_cant": "needs every crash point", "anchors": ["src/crashmail/toss.c", "src/crashmail/crashmail.c: AfterScanToss, BeforeScanToss", "src/crashmail/safedel.c"]}
{"id": "C30", "title": "AreaFix changes nothing without the right password", "statement": "A request from an unknown node or with a wrong password changes no link, no area and no node setting.", "quantifier": "all requests and configurations", "why_tests_cant": "unbounded request texts", "anchors": ["src/crashmail/areafix.c: AreaFix"]}
{"id": "C31", "title": "AreaFix only touches the requester and respects access rights", "statement": "An AreaFix request never changes another node's links; it adds a link only to an area whose group the node may use and from which it is not banned, marks it read-only when policy says so, and never removes a mandatory link (unless it is the feed).", "quantifier": "all requests and configurations", "why_tests_cant": "unbounded request texts and area lists", "anchors": ["src/crashmail/areafix.c: AreaFix, CheckFlags"]}
{"id": "C32", "title": "Filter expressions evaluate to their documented value", "statement": "A filter expression built from AND, OR, NOT and parenthesised terms evaluates to the value of its right-associated reading, reports malformed expressions as errors and never loops.", "quantifier": "all expression texts and all variable environments", "why_tests_cant": "unbounded expressions", "anchors": ["src/shared/expr.c: expr_eval"]}
{"id": "C33", "title": "Text search finds a substring iff present, blind spots apart", "statement": "The text search used by filters reports only real case-insensitive occurrences and always terminates. It never misses a text containing the search string, unless the string overlaps itself in one of two described ways; each such string is missed in some text that contains it.", "quantifier": "all patterns and texts", "why_tests_cant": "depends on self-overlap of patterns", "anchors": ["src/crashmail/filter.c: bminit, bmfind"]}
{"id": "C34", "title": "Filters run in order and KILL is final", "statement": "Filter rules are applied in configuration order to each message, a KILL command stops processing immediately, and a message for which no rule fires is unchanged.", "quantifier": "all rule lists and messages", "why_tests_cant": "unbounded rule lists", "anchors": ["src/crashmail/filter.c: Filter"]}
{"id": "C35", "title": "Importing into a *.MSG area never overwrites a message", "statement": "Each import into a MSG area uses a number for which no file exists and leaves all other files unchanged.", "quantifier": "all directory states and import sequences", "why_tests_cant": "unbounded states", "anchors": ["src/crashmail/mb_msg.c: msg_importfunc, msg_GetHighLowMsg"]}
{"id": "C36", "title": "Local messages are exported exactly once", "statement": "A complete scan of a *.MSG area exports, in ascending order, exactly the messages that are local, not marked as sent and above the high water mark, and marks them as sent or deletes them, leaving every other file as it was; a message that was exported and marked is not exported by any later scan; as long as the high water mark names an existing message, a message posted with a new highest number is exported by the next scan.", "quantifier": "all area contents, scan and import histories", "why_tests_cant": "unbounded histories", "anchors": ["src/crashmail/mb_msg.c: msg_exportfunc, msg_ExportMSGNum, msg_afterfunc, msg_WriteHighWater"]}
{"id": "C37", "title": "A JAM message reads back as written and others are untouched", "statement": "After adding a message to a JAM base, reading its number returns the same header fields, subfields and text, and every earlier message still reads the same.", "quantifier": "all bases reachable by the library and all messages", "why_tests_cant": "file offsets are unbounded", "anchors": ["src/jamlib/message.c: JAM_AddMessage, JAM_ReadMsgHeader, JAM_ReadMsgText", "src/jamlib/structrw.c"]}
{"id": "C38", "title": "The JAM active message counter is exact", "statement": "After any sequence of additions, empty additions, header changes and deletions, the base header's active count equals the number of readable messages not marked deleted.", "quantifier": "all operation sequences", "why_tests_cant": "unbounded histories", "anchors": ["src/jamlib/message.c: JAM_AddMessage, JAM_ChangeMsgHeader, JAM_DeleteMessage"]}
{"id": "C39", "title": "Packing a JAM base drops only deleted messages and keeps numbers", "statement": "Packing keeps every undeleted message with its message number, header, subfields and text, and makes every deleted message unreadable.", "quantifier": "all bases", "why_tests_cant": "unbounded bases", "anchors": ["src/tools/crashmaint.c: ProcessAreaJAM"]}
{"id": "C40", "title": "Maintenance keeps the newest messages and renumbers without loss", "statement": "MSG maintenance by number deletes exactly the oldest surplus messages; renumbering gives the remaining messages consecutive numbers from 2 in the same order and never overwrites a message; the high water mark keeps pointing at the same message.", "quantifier": "all directory contents", "why_tests_cant": "unbounded directories", "anchors": ["src/tools/crashmaint.c: ProcessAreaMSG"]}
{"id": "C41", "title": "JAM checksums are CRC-32 of the lower-cased text", "statement": "The checksum used for JAM index and MSGID lookups is the reflected CRC-32 (polynomial EDB88320, initial value and no final complement) of the lower-cased bytes.", "quantifier": "all byte strings", "why_tests_cant": "unbounded strings", "anchors": ["src/jamlib/crc32.c: JAM_Crc32, crc32tab"]}
{"id": "C42", "title": "Reply threading produces well formed chains", "statement": "Linking a reply appends it to the end of the parent's reply chain without losing or cutting existing replies and never links a message twice.", "quantifier": "all reply structures", "why_tests_cant": "unbounded chains", "anchors": ["src/crashmail/mb_jam.c: jam_setreply, jam_linkmb"]}
{"id": "C43", "title": "Area statistics survive restarts", "statement": "Writing and reading the statistics file restores the counters of every area and node present in the configuration, and damaged files are rejected.", "quantifier": "all statistics", "why_tests_cant": "unbounded lists", "anchors": ["src/crashmail/stats.c: WriteStats, ReadStats"]}
{"id": "C44", "title": "The nodelist index finds what was indexed", "statement": "Looking up an address in an index produced from a nodelist returns the entry of the first nodelist line for that address, with its region and hub, and reports absence otherwise.", "quantifier": "all nodelists and addresses", "why_tests_cant": "unbounded nodelists", "anchors": ["src/tools/crashlist.c: ProcessList, WriteIdx", "src/cmnllib/cmnllib.c: cmnlFindNL"]}
{"id": "C45", "title": "Configuration updates rewrite only what changed", "statement": "Updating the configuration file replaces exactly the blocks of changed areas and nodes, copies every other line verbatim and in order, and at every crash point a complete old or new version of the file exists on disk.", "quantifier": "all configuration files, change sets and crash points", "why_tests_cant": "unbounded files, all crash points", "anchors": ["src/crashmail/config.c: UpdateConfig, WriteArea, WriteNode"]}
{"id": "C46", "title": "Intrusive lists behave like sequences", "statement": "Appending to, removing from and freeing an internal list behaves like the corresponding operation on a sequence for every history of operations; out of range removals are the only undefined case.", "quantifier": "all operation sequences", "why_tests_cant": "unbounded histories, pointer surgery", "anchors": ["src/shared/jblist.c"]}
{"id": "C47", "title": "Inbound files are processed oldest first", "statement": "Directory entries are tossed in order of their modification time, each exactly once.", "quantifier": "all directories", "why_tests_cant": "unbounded directories", "anchors": ["src/crashmail/misc.c: SortFEList, DateCompareFE", "src/crashmail/toss.c: TossDir"]}
{"id": "C48", "title": "Archive type detection follows the recognition pattern", "statement": "An archive is attributed to the first packer whose recognition pattern ($xx hex byte, ? any byte, other characters literal) matches the start of the file.", "quantifier": "all files and patterns", "why_tests_cant": "unbounded strings", "anchors": ["src/crashmail/toss.c: Compare, DetectPacker"]}
{"id": "C49", "title": "Packet file names carry the destination", "statement": "The name given to a finished packet tells its flavour and destination: reading it back gives exactly these, and packets with different numbers, flavours or destinations have different names. The packets made in one run have different numbers as long as the clock does not go back and not more than 256 are made in a second, and a packet being written is never overwritten.", "quantifier": "all packets, clocks and directories", "why_tests_cant": "unbounded sequences and clock readings", "anchors": ["src/crashmail/pkt.c: CreatePkt, FinishPacket", "src/crashmail/outbound.c: PackFile"]}
{"id": "C50", "title": "Looping netmail is recognised by the program's own Via lines", "statement": "A netmail counts as looping exactly if its text has a Via line written by this program that names one of the system's own addresses; the line the program adds to mail it passes on is always recognised.", "quantifier": "all messages, all own addresses", "why_tests_cant": "depends on every position and form of a line in the text", "anchors": ["src/crashmail/handle.c: IsLoopMail, CheckFoundAka"]}
{"id": "C51", "title": "JAM maintenance deletes exactly the surplus and the outdated messages", "statement": "Maintenance of a JAM area marks as deleted exactly the oldest messages above the configured number and the messages older than the configured number of days, leaves every other message unchanged and keeps the count of active messages exact.", "quantifier": "all bases, limits and dates", "why_tests_cant": "unbounded bases", "anchors": ["src/tools/crashmaint.c: ProcessAreaJAM"]}
{"id": "C52", "title": "Rescanning a *.MSG area hands on what was imported", "statement": "A rescan of a *.MSG area hands on exactly the messages there are, or the requested number of the last numbers, in ascending order and without changing any file; a message that was imported comes back with the same names, subject, date, text, path and (if kept) SEEN-BY list, with only a RESCANNED line added.", "quantifier": "all areas, messages and limits", "why_tests_cant": "unbounded areas and texts", "anchors": ["src/crashmail/mb_msg.c: msg_rescanfunc, msg_ExportMSGNum, msg_importfunc, msg_WriteMSG"]}
{"id": "C53", "title": "JAM messages are exported exactly once", "statement": "A scan of a JAM area hands on exactly the messages that are local, not deleted and not yet sent, in ascending order, marks those as sent and changes nothing else; a message handed on once is never handed on again in any later history of imports, deletions, changes, scans and sessions, with or without the high water mark, and no waiting message is ever left behind the mark.", "quantifier": "all bases, histories, handlers and configurations", "why_tests_cant": "unbounded histories of a mutable file format", "anchors": ["src/crashmail/mb_jam.c: jam_exportfunc, jam_ExportJAMNum, jam_gethighwater, jam_writehighwater, jam_afterfunc, jam_importfunc"]}
{"id": "C54", "title": "Areas and nodes survive being written to the configuration file", "statement": "The text written for an area or a node, read below a configuration file that defines what it refers to, defines exactly this area or node again, with every field (names with any characters, flags, groups, lists of any length).", "quantifier": "all configuration files, areas and nodes", "why_tests_cant": "unbounded lists and strings with quoting", "anchors": ["src/crashmail/config.c: WriteNode, WriteArea, WriteSafely, ReadConfig"]}
{"id": "C55", "title": "Rescanning a JAM area hands on what was imported", "statement": "A rescan of a JAM area hands on exactly the messages there are, or the requested number of the last numbers, in ascending order and without changing the base, each with the names, subject, date, attributes and text that are stored; a message that was imported gets the next number, leaves the others alone, and comes back in every later rescan with the same names, subject, date, cost, attributes, addresses, control lines, text, path and (if kept) SEEN-BY list, with only routing and RESCANNED lines added.", "quantifier": "all bases, messages, limits, handlers and later histories", "why_tests_cant": "unbounded bases and texts, a mutable binary format", "anchors": ["src/crashmail/mb_jam.c: jam_importfunc, jam_rescanfunc, jam_ExportJAMNum, jam_makekludge"]}
{"id": "C56", "title": "Lastread records of a JAM base are a table", "statement": "Whatever any number of programs do to the lastread records of a JAM base through the library, reading gives the record last written for that user, or the one the file held in the beginning, or no user; writing succeeds, changes the record of no other user and moves none.", "quantifier": "all histories of opening, reading and writing by any number of handles, all files of whole records", "why_tests_cant": "unbounded interleavings of handles which remember positions", "anchors": ["src/jamlib/lastread.c: JAM_ReadLastRead, JAM_WriteLastRead"]}
{"id": "C57", "title": "Command lines mean what they say", "statement": "A command line that gives no argument twice is accepted exactly if each word is a keyword of the program with its value, a switch, or a free word there is room for, and nothing required is missing; then each argument has the value given behind its keyword (in any order and case), and the free words are the values of the remaining arguments in their order. A keyword without its value and, for crashmail, crashmaint and crashwrite, any unknown word are refused.", "quantifier": "all command lines, all tables of arguments with different keywords (in particular that of every program)", "why_tests_cant": "unbounded lines, all orders", "anchors": ["src/shared/parseargs.c: parseargs", "src/crashmail/crashmail.c: args", "src/tools/*.c: args"]}
{"id": "C58", "title": "Runs on one configuration exclude each other", "statement": "In every schedule of any number of runs, killed at any time, in which no run looks for the lock file while another is about to create it and UNLOCK is not used on a run at work, at most one run is at work on a configuration and its lock file exists; runs that end by themselves, with or without error, leave no lock file; after LOCK nobody works on the configuration until UNLOCK. If no run opens the duplicate database while another has yet to write it, it never loses an id and has all ids seen by the runs that ended. A command line that asks for one action gets exactly that; with TOSS, one more.", "quantifier": "all schedules of unboundedly many runs, all kill points, all command lines", "why_tests_cant": "interleavings and kill points", "anchors": ["src/crashmail/crashmail.c: main, LockConfig, UnlockConfig, CleanUp", "src/crashmail/config.c: ReadConfig (filename)"]}
{"id": "C59", "title": "Dates survive being written and read", "statement": "The date text of a time from 1980 to 2079 has 19 characters and says its local time; read again, in any time zone, it gives a time with that local time (the same time, unless the clock showed it twice). The other usual form of dates is understood as well, month names in any case; a text without a month means the present. A date kept in a JAM base comes back unchanged if the offset found is the same.", "quantifier": "all times, time zones, date texts", "why_tests_cant": "unbounded times, all zones", "anchors": ["src/crashmail/misc.c: MakeFidoDate, FidoToTime", "src/crashmail/mb_jam.c: jam_utcoffset"]}
{"id": "C60", "title": "JAM bases are opened and closed in order", "statement": "In every run, whatever areas are asked for and whatever the system answers, no more than MAXOPEN JAM bases are open at a time, a function is handed only a base that is open and belongs to its area, each base is closed exactly once, and the one closed for want of places is the one unused for the longest time: an area is not reopened while fewer than MAXOPEN others were asked for since. Opening a complete base changes no file, and no file of any other base or area is ever touched.", "quantifier": "all sequences of requests, all answers of the system, all values of MAXOPEN", "why_tests_cant": "unbounded histories", "anchors": ["src/crashmail/mb_jam.c: jam_openbase, jam_beforefunc, jam_afterfunc", "src/jamlib/mbase.c: jam_Open, JAM_OpenMB, JAM_CreateMB"]}
{"id": "C61", "title": "A scan exports the areas asked for", "statement": "SCAN exports exactly the areas that can be exported, each once and in the order of the configuration (netmail not with NOEXPORTNETMAIL); SCANLIST and SCANDOTJAM exactly those among them whose names or paths the file gives, each once, in the order in which they are first named; SCANAREA the named one. Nothing is exported if the preparations fail, the first failure or an interruption ends the scan, and the work is concluded exactly once, as a success exactly if every area was exported.", "quantifier": "all configurations, files, interruptions and results of the exports", "why_tests_cant": "unbounded files and area lists", "anchors": ["src/crashmail/scan.c: Scan, ScanList, ScanDotJam, ScanArea"]}
{"id": "C62", "title": "A version 7+ nodelist is read as it is stored", "statement": "For every index that is a search tree, whatever its depth and the shape of its records, any number of questions in any order is answered as the list says: whether a node or point is listed, and which hub and region a node has (-1 if it is not listed). The files have the layout of the machine and the bytes of hub, region and packed text are below 128.", "quantifier": "all index trees, data records, questions and orders of questions", "why_tests_cant": "unbounded trees and histories; every shape of record", "anchors": ["src/crashmail/nl_v7p.c: v7p_nlStart, v7p_findoffset, v7p_ndxcompare, v7p_unpack, v7p_gethubregion, v7p_nlCheckNode, v7p_nlGetHub, v7p_nlGetRegion"]}
{"id": "C63", "title": "CrashWrite sends what it was told", "statement": "For every command line and text file of whole lines, CrashWrite writes one new packet under a name that no file had; read by a system that takes packets with this password from this address it gives exactly one message with the names, subject, addresses, attributes, date and message id asked for and the lines of the file, for echomail in the area, with tear line and origin. An existing file is never touched, and when the command line, an address, the text or the packet is unusable the exit code says so and no file is changed.", "quantifier": "all command lines, clocks, directories, texts, and all readers of the packet", "why_tests_cant": "unbounded strings and directories; the packet must be understood by every reader", "anchors": ["src/tools/crashwrite.c: main", "src/crashmail/pkt.c: ReadPkt"]}
{"id": "C64", "title": "CrashExport lists the areas CrashMail knows", "statement": "For every configuration that CrashMail accepts, format and choice of groups, CrashExport writes one line for each area that the format is about, in the order of the configuration, with the tag, description, path, own address, group and nodes that CrashMail reads for that area; areas that are unconfirmed, patterns for new areas or in other groups are left out, the sysop's name is the one of the configuration and no other file changes. When a word is missing, the format unknown or a file cannot be opened the exit code says so and nothing changes.", "quantifier": "all configuration files, formats, groups and directories", "why_tests_cant": "two programs read the same file with different code; they must agree for every file", "anchors": ["src/tools/crashexport.c: main, writearea", "src/crashmail/config.c: ReadConfig"]}
{"id": "C65", "title": "AreaFix sends its lists completely and discloses nothing else", "statement": "The list of areas a node gets (available, linked or unlinked) has every echomail area it is linked to or has access to, as asked for, exactly once, and no other area of this system, together with the areas it may request from other systems and that this system does not have; by group and name, with marks, traffic and totals that are right. Any answer of any length is sent completely and in order in messages of at most the configured number of lines (five at least), numbered, under the right addresses. Commands for other systems go out once, with the password and under the address of the route, and the queues are empty afterwards.", "quantifier": "all configurations, lists, statistics, limits, answers of any length, and all ways in which handing on changes the message text", "why_tests_cant": "unbounded lists divided at every possible place", "anchors": ["src/crashmail/areafix.c: rawSendList, AddForwardList, CalculateWeekKB, SortSortList, rawSendHelp, afInitReply, afAddLine, afSendMessage, SendRemoteAreafix, DoSendAFList"]}
{"id": "C66", "title": "The list of the outbound directory is complete", "statement": "The list has exactly what waits in an outbound directory for the nodes that were asked for (flow files, packets and requests, those of points in the directories of their bosses), each file once and in the order of the addresses, with its kind, address and date, the number of files it names, their sizes and, if wanted, their names; at its end it has the sums. Files which CrashMail puts there for a node of the own zone are listed under the address of this node and with their priority. A command line of directory, zone, pattern and VERBOSE means this; what is missing is taken from the environment.", "quantifier": "all directories, files, patterns and zones", "why_tests_cant": "unbounded directories and contents, all names", "anchors": ["src/tools/crashlistout.c: main, AddEntry, Display, Compare4DPat, hextodec, unit", "src/crashmail/outbound.c: MakeBaseName"]}
{"id": "C67", "title": "A node looked up in the nodelist is shown as it is listed", "statement": "For a node that is listed in one of the nodelists CrashList indexed, CrashGetNode prints its address, region and hub, what it is listed as, and the name, location, sysop, phone number, speed and flags of the first line that lists it, each under its own heading; for others it says that they were not found. What is no address, and a directory without a valid index, is refused with an error status.", "quantifier": "all nodelists, addresses and directories", "why_tests_cant": "unbounded nodelists", "anchors": ["src/tools/crashgetnode.c: main, strip", "src/cmnllib/cmnllib.c: cmnlOpenNL, cmnlFindNL"]}
{"id": "C68", "title": "Statistics are reported as they were kept", "statement": "For every statistics file CrashMail wrote, CrashStats prints, for any choice of order, groups and parts, each confirmed mail area of the groups asked for exactly once, in the order asked for, with its name, its first and last date, its number of messages and duplicates and its average per day (of the last seven days; of all days if there was nothing in these), or its messages on each of the last seven days, the sums of the columns, and each node once, in order of addresses, with all its counters. Wrong words and files that hold no statistics are refused.", "quantifier": "all statistics with numbers that fit the columns, all options and groups, any sorting function", "why_tests_cant": "unbounded numbers of areas and nodes, all combinations of options", "anchors": ["src/tools/crashstats.c: main, CalculateAverage, Sort, SortNodes, CompareAlpha, CompareTotal, CompareMsgs, CompareDate, CompareLastDate, CompareDupes, CompareNodes, unit, CheckFlags"]}
{"id": "C69", "title": "Only a sound configuration is accepted", "statement": "A configuration that was read is accepted exactly if it has an address of its own, no pattern or destination of FILEATTACH, BOUNCE, CHANGE, ROUTE or REMAPMSG needs a nodelist that is not there, no two areas keep their messages in the same place (the template for new areas may be followed by one with its path), no filter condition of at most 200 characters is malformed, and every area a filter copies to exists and is a local one. What is reported otherwise is a fault the configuration has. With an accepted configuration, no match of these patterns and no destination depends on a nodelist that is not configured, and no filter condition of this length is malformed for any message. Directories that were not given are the inbound and outbound.", "quantifier": "all configurations, all messages filtered later, all nodelists", "why_tests_cant": "unbounded lists of areas, routes and filters; every later message", "anchors": ["src/crashmail/config.c: CheckConfig", "src/crashmail/filter.c: CheckFilter"]}
{"id": "C70", "title": "External filter commands get the message and decide what becomes of it", "statement": "The command of an EXECUTE filter is run exactly once, with its placeholders replaced by the names, subject, area, date and addresses of the message and by names of files. While it runs, these files hold the message: as text with Fidonet or Internet addresses, with the headers, the control lines and all lines of the text in order, long ones broken at blanks, or as stored message marked as sent; afterwards they are gone, and no other file is touched by CrashMail. The message stays as it is, is killed exactly if the exit status is 0, and the work goes on exactly if it is below 20.", "quantifier": "all messages with whole lines, commands, disks, answers of the command and contents of memory", "why_tests_cant": "unbounded texts and disks, all commands", "anchors": ["src/crashmail/filter.c: Filter_Execute", "src/crashmail/misc.c: ExpandFilter, MakeRFCAddr, WriteRFC, WriteMSG", "src/oslib_linux/osmisc.c: osExecute"]}
{"id": "C71", "title": "CrashMaint maintains the areas CrashMail has", "statement": "For every configuration that CrashMail accepts, every pattern and choice of MAINT and PACK, CrashMaint processes each area with a message base that is no template and whose name matches the pattern exactly once, in the order of the configuration, with the path, message base, KEEPNUM and KEEPDAYS that CrashMail reads for it, and no other area, until one fails or the user breaks in; the exit code tells the failure. Nothing else is changed if processing an area changes only what is at its path. Without MAINT and PACK, with unknown words or without a configuration nothing is done. KEEPNUM and KEEPDAYS are given only for areas that hold messages, in at most 29 characters.", "quantifier": "all configuration files, command lines, patterns, interruptions and results of the processing", "why_tests_cant": "two programs read the same file with different code; they must agree for every file", "anchors": ["src/tools/crashmaint.c: main, ReadConfig", "src/crashmail/config.c: ReadConfig", "src/oslib_linux/ospattern.c: osMatchPattern"]}
{"id": "C72", "title": "Every setting of the configuration file has the value its line gives", "statement": "If a configuration file is accepted, each text and number is the one of the last line with its keyword, cut to the stated length, or the default if there is none; each switch is on exactly if a line has its keyword; lists have what their lines give, in the order of the lines, with routes and area lists referring to the first AKA or node with the address given above them; each filter has its condition and the commands below it up to the next filter, and each AKA the nodes, patterns and domain below it up to the next AKA; and every line is empty, a comment or has a known keyword. A right line never makes an accepted file unacceptable.", "quantifier": "all configuration files that are accepted, all keywords", "why_tests_cant": "unbounded files with any order and number of lines", "anchors": ["src/crashmail/config.c: ReadConfig, InitConfig, CorrectFlags", "src/shared/jbstrcpy.c: jbstrcpy, jbstrcpyrest"]}
{"id": "C73", "title": "An area that is added automatically has the right settings and a place of its own", "statement": "When an area is added because a message for it arrives or a node asks for it, it gets the requested name, the address the sender knows us by, the default group of the sender, and flags, message base, limits and links of the template for that group, and the nodes that take all areas of the group are linked. Its path is that of the template with the name and a number filled in, never outside the directory of the template whatever the name is, and areas added in one run have different paths if the number is in it. The description comes from the first list of the sender that has one, otherwise from the template.", "quantifier": "all configurations, names, senders, templates, lists of descriptions and sequences of areas added in a run", "why_tests_cant": "arbitrary names of areas come from other systems; unbounded sequences of new areas", "anchors": ["src/crashmail/handle.c: AddArea, AddTossNode, MakeDirectory, GetDescription"]}
{"id": "C74", "title": "Files attached to netmail are handed on complete", "statement": "When netmail with attached files is sent on, the files named in its subject go to the packet directory and are listed for the next system: those of mail from other systems are moved from the inbound directory, those of mail written here are copied. No subject, whatever directories it names, makes the program list or change a file outside the inbound and packet directories for another system. A file that is there is complete where its entry says; a failed write leaves no part of a copy and the original as it was. Files written here are never changed.", "quantifier": "all subjects, file systems, contents of any size, directories and patterns of failing calls", "why_tests_cant": "arbitrary names come from other systems, and every call of the operating system may fail at any point", "anchors": ["src/crashmail/misc.c: copyfile, movefile", "src/crashmail/handle.c: HandleNetmail"]}
{"id": "C75", "title": "The commands for one node or one area act on exactly that one", "statement": "RESCAN sends the messages of the named echomail area to the named node and to no other, with both and the receiver in SEEN-BY and this system in PATH, and does nothing for an unknown node or area or one that cannot be rescanned. SENDLIST and the like serve the named node, or for ALL every node that wants to be notified exactly once. REMOVE removes the first echomail area of that name and no other from the configuration and tells the nodes linked to it.", "quantifier": "all configurations, names, addresses and results of the other parts", "why_tests_cant": "unbounded lists of nodes and areas, and arbitrary names and addresses", "anchors": ["src/crashmail/crashmail.c: Rescan, SendAFList, RemoveArea", "src/crashmail/handle.c: HandleRescan", "src/crashmail/areafix.c: SendRemoveMessages, RemoveDeletedAreas"]}
{"id": "C76", "title": "A node is told exactly its own configuration", "statement": "The answer to an AreaFix request for the configuration holds the address, operator, passwords and packer of the node that asks, one line for each of its switches that is set and none for the others, and in the order of the alphabet all groups it has full access to and all it has read-only access to, and no other group. It is divided into messages like the other answers, with no line lost.", "quantifier": "all configurations whose fields have the lengths the program accepts, all limits for the size of a message", "why_tests_cant": "unbounded configurations and limits", "anchors": ["src/crashmail/areafix.c: rawSendInfo"]}
{"id": "C77", "title": "The log is only added to, one line for each event", "statement": "For any sequence of events, those of at most the configured level each become one line at the end of the log with the letter of their kind, day, month, year and time in a fixed layout and their text, in order; nothing that was in the log before is changed and no other file is touched. With syslog each becomes one entry with the priority of its kind. Text of any length and any depth of nesting is safe.", "quantifier": "all sequences of events, levels, times, nesting depths and earlier contents of the log", "why_tests_cant": "unbounded sequences of events and contents", "anchors": ["src/crashmail/logwrite.c: OpenLogfile, LogWrite"]}
{"id": "C78", "title": "AreaFix answers every command, and truthfully", "statement": "Every line of an AreaFix request that is not empty is answered by a text that starts with that line. What is said about each area - attached, attached as read-only, already attached, banned, no access, detached, may not be detached, not attached - is what was done to it, for single names and for patterns; an area is said to be unknown only if nothing was done, and to be requested only if the request went out to the system that is named. The settings of the node (paused, password, packer) change if and only if the answer says so, and the packers listed are those that can be chosen. A rescan is reported, with the number of its messages, if and only if it was done. The answer to a request consists of the answers to its lines in their order, each telling what was done when that line was carried out. No answer overruns a buffer, and all its lines reach the node that asked.", "quantifier": "all requests, configurations, names, patterns, options and limits for the size of a message", "why_tests_cant": "unbounded requests and lists of areas, and arbitrary configurations", "anchors": ["src/crashmail/areafix.c: AreaFix, AddCommandReply, afAddLine"]}
