{
 "claims": [
  {
   "property": "C01",
   "status": "proved",
   "theorems": [
    "C01_compose_layout",
    "C01_construct_compose"
   ],
   "note": "C01_compose_layout for every complete in-range message object, C01_construct_compose starting from the constructor's keyword arguments, for all 102 registered classes."
  },
  {
   "property": "C02",
   "status": "proved",
   "theorems": [
    "C02_decode_layout",
    "C02_absent_reads_default"
   ],
   "note": "all 83 flat classes; classes with special parsing are covered by C09-C17, C21, C22."
  },
  {
   "property": "C03",
   "status": "proved",
   "theorems": [
    "C03_round_trip",
    "C03_asymmetric_refuted"
   ],
   "note": "every symmetric message including Z/IP nesting of any depth; C03_asymmetric_refuted shows the restriction to symmetric codecs is needed (Supervision.Get)."
  },
  {
   "property": "C04",
   "status": "partial",
   "theorems": [
    "C04_refuted",
    "C04_alters_other_attribute_refuted",
    "C04_rejected_partial"
   ],
   "note": "False as stated: C04_refuted and C04_alters_other_attribute_refuted. C04_rejected_partial proves rejection for all whole byte integers, all negative values and all bit fields that overflow the byte; missing (false): bit fields that start inside a byte and overflow into earlier fields."
  },
  {
   "property": "C05",
   "status": "proved",
   "theorems": [
    "C05_short",
    "C05_unregistered",
    "C05_registered"
   ],
   "note": ""
  },
  {
   "property": "C06",
   "status": "proved",
   "theorems": [
    "C06_registry_injective",
    "C06_decode_id",
    "C06_compose_id"
   ],
   "note": ""
  },
  {
   "property": "C07",
   "status": "proved",
   "theorems": [
    "C07_outcome",
    "C07_allowance"
   ],
   "note": "For every byte string: outcome is a message of nesting depth at most len/2+1 or one of five named exceptions; recursion allowance above len/2 is irrelevant."
  },
  {
   "property": "C08",
   "status": "proved",
   "theorems": [
    "C08_stream_round_trip",
    "C08_value",
    "C08_remaining"
   ],
   "note": ""
  },
  {
   "property": "C09",
   "status": "proved",
   "theorems": [
    "C09_header_extension"
   ],
   "note": "Frames with a complete extension header and any list of well formed options; the extension length byte limits the options to 254 bytes, as on the wire."
  },
  {
   "property": "C10",
   "status": "partial",
   "theorems": [
    "C10_unknown_option_lost",
    "C10_unknown_option_refuted",
    "C10_known_options_partial"
   ],
   "note": "False in the code: any option type other than 1, 3, 4 makes the decoder raise AttributeError (proved for all such types). Refuted; what holds (known option types) is the _partial theorem."
  },
  {
   "property": "C11",
   "status": "proved",
   "theorems": [
    "C11_node_list"
   ],
   "note": "Both node list report classes; a report with no mask bytes at all leaves the attribute unset, 1..27 bytes raise end-of-file."
  },
  {
   "property": "C12",
   "status": "partial",
   "theorems": [
    "C12_high_ids_refuted",
    "C12_low_ids_partial",
    "C12_high_ids_never_seen"
   ],
   "note": "False in the code: only 28 mask bytes are read, so ids 225..232 are never seen (proved). Refuted; ids up to 224 are in the _partial theorem."
  },
  {
   "property": "C13",
   "status": "partial",
   "theorems": [
    "C13_sensor_mask_refuted",
    "C13_sensor_mask_partial",
    "C13_one_byte_partial"
   ],
   "note": "False in the code: the mask is read as one big endian number, so several byte masks are read in reverse byte order, and a set bit of an unknown sensor type raises ValueError. Refuted; the exact behaviour and the single byte case are the _partial theorems."
  },
  {
   "property": "C14",
   "status": "proved",
   "theorems": [
    "C14_members_round_trip",
    "C14_members_text"
   ],
   "note": "All classes with a member list, via the wire and via the stored text."
  },
  {
   "property": "C15",
   "status": "proved",
   "theorems": [
    "C15_dsk_text",
    "C15_dsk_round_trip",
    "C15_dsk_injective",
    "C15_dsk_bytes"
   ],
   "note": ""
  },
  {
   "property": "C16",
   "status": "partial",
   "theorems": [
    "C16_malformed_text_refuted",
    "C16_other_lengths_accepted",
    "C16_not_a_number_partial",
    "C16_words_partial"
   ],
   "note": "False in the code: a text without eight groups silently gives the empty key and words above 65535 are cut. Refuted; eight groups with a non-number raise, and proper texts are exact (_partial)."
  },
  {
   "property": "C17",
   "status": "proved",
   "theorems": [
    "C17_sensor_value",
    "C17_meter_value",
    "C17_meter_cut"
   ],
   "note": "Values are kept as mantissa, precision, size and scale; the float division mantissa / 10**precision is not modelled."
  },
  {
   "property": "C18",
   "status": "proved",
   "theorems": [
    "C18_resolves",
    "C18_ack_answers",
    "C18_ack_read"
   ],
   "note": "packet part in PropertiesFields, C18_resolves is the connection part: the acknowledgement marks exactly the outstanding send with its number."
  },
  {
   "property": "C19",
   "status": "partial",
   "theorems": [
    "C19_refuted",
    "C19_flags_refuted",
    "C19_reencode_partial"
   ],
   "note": "False as stated: C19_refuted, C19_flags_refuted (duplicate reserved attribute names). C19_reencode_partial: every flat class with distinct names, every full length payload."
  },
  {
   "property": "C20",
   "status": "partial",
   "theorems": [
    "C20_refuted",
    "C20_eq_partial"
   ],
   "note": "False as stated: C20_refuted (== raises for a decoded node list report). C20_eq_partial: total and exact for all encodable messages."
  },
  {
   "property": "C21",
   "status": "proved",
   "theorems": [
    "C21_configuration_set",
    "C21_configuration_report",
    "C21_configuration_report_cut"
   ],
   "note": "The value bytes are the `size` bytes after the header. A report with no byte after its header leaves value unset."
  },
  {
   "property": "C22",
   "status": "proved",
   "theorems": [
    "C22_command_list",
    "C22_command_list_cut",
    "C22_group_info"
   ],
   "note": ""
  },
  {
   "property": "C23",
   "status": "proved",
   "theorems": [
    "C23_framing",
    "C23_only_sends"
   ],
   "note": "C23_framing for every reachable state of an open connection; C23_only_sends: calls write nothing else."
  },
  {
   "property": "C24",
   "status": "proved",
   "theorems": [
    "C24_acknowledged"
   ],
   "note": "all schedules, including time outs and cancellations."
  },
  {
   "property": "C25",
   "status": "proved",
   "theorems": [
    "C25_not_early",
    "C25_announced"
   ],
   "note": "C25_not_early and C25_announced (extensions were announced for that send and have the specified length)."
  },
  {
   "property": "C26",
   "status": "proved",
   "theorems": [
    "C26_isolated"
   ],
   "note": ""
  },
  {
   "property": "C27",
   "status": "partial",
   "theorems": [
    "C27_unique_refuted",
    "C27_unique_partial",
    "C27_refused"
   ],
   "note": "False as stated: C27_unique_refuted (an acknowledgement handled while the expiry of its send is processed). C27_unique_partial proves uniqueness in calm runs (no datagram handled inside an expiry window); C27_refused (refusal without side effects) holds in all runs."
  },
  {
   "property": "C28",
   "status": "partial",
   "theorems": [
    "C28_never_raises_refuted",
    "C28_never_raises_partial"
   ],
   "note": "False: C28_never_raises_refuted (KeyError when time out and acknowledgement cross). C28_never_raises_partial: in calm runs, for a free sequence number."
  },
  {
   "property": "C29",
   "status": "partial",
   "theorems": [
    "C29_released_refuted",
    "C29_released_partial"
   ],
   "note": "False: C29_released_refuted (cancellation keeps the number; the send 256 later is refused). C29_released_partial: every outstanding number belongs to a running or a cancelled send."
  },
  {
   "property": "C30",
   "status": "proved",
   "theorems": [
    "C30_malformed"
   ],
   "note": ""
  },
  {
   "property": "C31",
   "status": "partial",
   "theorems": [
    "C31_no_delay_refuted",
    "C31_no_command_refuted",
    "C31_expired_refuted",
    "C31_never_raises_partial"
   ],
   "note": "False: three refutations. C31_never_raises_partial: these are the only causes, in every reachable state."
  },
  {
   "property": "C32",
   "status": "partial",
   "theorems": [
    "C32_destination_refuted",
    "C32_destination_partial"
   ],
   "note": "False with more than one waiter: C32_destination_refuted. C32_destination_partial: complete case distinction by session; together with C37_cleaned_partial and C34 it gives the property for single waiters."
  },
  {
   "property": "C33",
   "status": "proved",
   "theorems": [
    "C33_timer",
    "C33_frame",
    "C33_never_idle"
   ],
   "note": "C33_never_idle assumes that the clock does not pass the due time of the timer (punctual runs)."
  },
  {
   "property": "C34",
   "status": "partial",
   "theorems": [
    "C34_first_reply_refuted",
    "C34_first_reply_partial",
    "C34_all_runs_partial",
    "C34_ready"
   ],
   "note": "False when the acknowledgement's time out race of C28 hits the call: C34_first_reply_refuted. C34_first_reply_partial: calm runs with a free sequence number; C34_all_runs_partial: all runs, with the two exceptions named; C34_ready: progress."
  },
  {
   "property": "C35",
   "status": "proved",
   "theorems": [
    "C35_fresh"
   ],
   "note": "all schedules, any number of waiters."
  },
  {
   "property": "C36",
   "status": "partial",
   "theorems": [
    "C36_time_out_refuted",
    "C36_missed_refuted",
    "C36_undisturbed_partial"
   ],
   "note": "False: C36_time_out_refuted, C36_missed_refuted. C36_undisturbed_partial: waiters of other ids never matter."
  },
  {
   "property": "C37",
   "status": "partial",
   "theorems": [
    "C37_cleaned_refuted",
    "C37_cleaned_partial"
   ],
   "note": "False for requests that are cancelled or fail while sending: C37_cleaned_refuted. C37_cleaned_partial: all calls ended by reply or time out."
  },
  {
   "property": "C38",
   "status": "partial",
   "theorems": [
    "C38_early_refuted",
    "C38_partial",
    "C38_ready_partial"
   ],
   "note": "False as stated: Node.sendAndReceive registers a session before sending but then drops it; a report that arrives before the acknowledgement resolves that session and is lost, and the call times out (C38_early_refuted). Proved for every schedule with one call for that type: the answer is the first matching message after the acknowledgement, and a call with such a message in time is ready to return it. The send itself (adapter.sendToNode) is an environment event with any outcome."
  },
  {
   "property": "C39",
   "status": "partial",
   "theorems": [
    "C39_swallowed_refuted",
    "C39_partial",
    "C39_others_partial"
   ],
   "note": "False as stated: after a failed send the session stays registered and swallows the next report of that type (C39_swallowed_refuted). Proved: it swallows at most that one, and messages of types no call asked for are always left to the handlers."
  },
  {
   "property": "C40",
   "status": "partial",
   "theorems": [
    "C40_refuted",
    "C40_forever_refuted",
    "C40_list_refuted",
    "C40_partial",
    "C40_list_partial"
   ],
   "note": "False as stated: _nmSeq is never reduced modulo 256, so from the 256th network management request on every request raises OverflowError and nothing is transmitted (C40_refuted: a concrete run with 255 acknowledged requests; C40_forever_refuted, C40_list_refuted: every reachable state after 255 requests). C40_partial, C40_list_partial: each of the first 255 requests with parameters in range writes exactly one datagram, with the expected bytes and the next sequence number."
  },
  {
   "property": "C41",
   "status": "partial",
   "theorems": [
    "C41_refuted",
    "C41_partial"
   ],
   "note": "False as stated: two sends that start before the connection to their node is open open two connections, and messages on the first one are then not attributed to any node (C41_refuted). Proved for every execution: a command goes over a connection made for its node, a connection belongs to one node, messages are attributed to the node of their connection or to none, and once a connection to a node is open no later call opens another."
  },
  {
   "property": "C42",
   "status": "partial",
   "theorems": [
    "C42_refuted",
    "C42_late_refuted",
    "C42_partial"
   ],
   "note": "False as stated: concurrent lookups share one answer (C42_refuted), and an advertisement that arrives after its lookup was given up answers the next lookup (C42_late_refuted). Proved: the address is that of the message which ended the wait following the solicitation for that node, and when nobody else waits for an advertisement it is the first advertisement received since."
  },
  {
   "property": "C43",
   "status": "proved",
   "theorems": [
    "C43_table_follows"
   ],
   "note": "Proved for every table, report and address assignment, for reports whose handling is not overlapped by another table-changing task (a second report, a node list request or a connect); 'iterates' only says that python's set iteration yields the set's elements."
  },
  {
   "property": "C44",
   "status": "partial",
   "theorems": [
    "C44_refuted",
    "C44_partial"
   ],
   "note": "Refuted: the first unresolvable node ends the handling, later nodes are not asked for and nobody is told. Proved: what holds after such a failure (removed nodes are gone, known addresses kept, nodes before the failing one added, nobody told)."
  },
  {
   "property": "C45",
   "status": "partial",
   "theorems": [
    "C45_refuted",
    "C45_cut_refuted",
    "C45_partial",
    "C45_unknown"
   ],
   "note": "Refuted: a node list that asks for an acknowledgement gets none; a packet cut inside its header raises. Proved for every packet with a whole header that does not carry a node list, every table in which the address is listed for one node at most; for unknown addresses proved for every packet. Only the source endpoint is announced (the code never passes on the destination endpoint)."
  },
  {
   "property": "C46",
   "status": "partial",
   "theorems": [
    "C46_refuted",
    "C46_partial"
   ],
   "note": "False as stated: the mode is not read back after it was set, and an unacknowledged set command also yields True (C46_refuted). Proved: what setGatewayMode does and returns for every answer; in particular the set command is sent exactly when the reported mode differs."
  },
  {
   "property": "C47",
   "status": "proved",
   "theorems": [
    "C47_supports",
    "C47_tables",
    "C47_marks"
   ],
   "note": "Command class lists are read independently as marks and classes (SpecNode.reads); tables and security flags are characterised for every list that can be read."
  },
  {
   "property": "C48",
   "status": "partial",
   "theorems": [
    "C48_total_refuted",
    "C48_total_partial"
   ],
   "note": "False as stated: a list ending with F1 raises IndexError (Node.__init__ reads cmdClasses[i + 1]). Proved: these are the only failing lists."
  },
  {
   "property": "C49",
   "status": "proved",
   "theorems": [
    "C49_waiters",
    "C49_route"
   ],
   "note": "Order, who is asked and result for listeners and handlers that do not raise; waiting callers get the message in any case."
  },
  {
   "property": "C50",
   "status": "partial",
   "theorems": [
    "C50_one_report_refuted",
    "C50_one_report_partial",
    "C50_unsupervised"
   ],
   "note": "False as stated: when handling the inner command raises (for instance a request without inner command) no report is sent. Proved for handlers that do not raise, with the bytes of the report."
  },
  {
   "property": "C51",
   "status": "proved",
   "theorems": [
    "C51_coalesce"
   ],
   "note": "Locks that do not overlap."
  },
  {
   "property": "C52",
   "status": "partial",
   "theorems": [
    "C52_lost_refuted",
    "C52_early_refuted",
    "C52_overlap_partial"
   ],
   "note": "False as stated: a second lock forgets earlier updates, and releasing the inner lock ends the outer one. Proved: an update after which no further lock is taken before the next release is notified."
  },
  {
   "property": "C53",
   "status": "proved",
   "theorems": [
    "C53_interviewed",
    "C53_version",
    "C53_starts"
   ],
   "note": "Interviews of one class running one after the other; overlapping interviews of the same class are not covered."
  },
  {
   "property": "C54",
   "status": "proved",
   "theorems": [
    "C54_filter",
    "C54_old_versions"
   ],
   "note": "From the received bytes to the listeners; below version 5 nothing is filtered."
  },
  {
   "property": "C55",
   "status": "proved",
   "theorems": [
    "C55_minimal",
    "C55_idempotent"
   ],
   "note": "With the bytes of the set command. The read back report is the node's answer; it must list the controller for the second run to send nothing."
  },
  {
   "property": "C56",
   "status": "partial",
   "theorems": [
    "C56_scale_refuted",
    "C56_flag_refuted",
    "C56_assign_partial",
    "C56_exact_partial"
   ],
   "note": "False as stated: an equal measured value with another scale is not stored, and assigning a bit field its own value is announced as a change (two bits_t objects never compare equal). Proved: conversion, notification exactly when python considers old and new value different, other attributes untouched, and exactness for the types where equal means identical."
  },
  {
   "property": "C57",
   "status": "proved",
   "theorems": [
    "C57_all_called"
   ],
   "note": "Plain listeners are called at once in registration order, coroutine listeners are started in registration order."
  },
  {
   "property": "C58",
   "status": "proved",
   "theorems": [
    "C58_once",
    "C58_notice",
    "C58_queued"
   ],
   "note": "Serial pushes per queue handle; wake-ups, acknowledgements and heartbeats interleave freely. Different messages with equal checksums: see C75."
  },
  {
   "property": "C59",
   "status": "partial",
   "theorems": [
    "C59_race_refuted",
    "C59_partial"
   ],
   "note": "Refuted: two pushes whose waiting notices overlap are both stored. Partial: a message that is already queued is never stored again, whatever else is running."
  },
  {
   "property": "C60",
   "status": "partial",
   "theorems": [
    "C60_order_refuted",
    "C60_reverse_partial",
    "C60_wakeups_partial"
   ],
   "note": "Refuted: the newest message is delivered first. Partial: all messages are delivered, in reverse order."
  },
  {
   "property": "C61",
   "status": "proved",
   "theorems": [
    "C61_pushed_before",
    "C61_at_most_once",
    "C61_wire"
   ],
   "note": "Counting theorems over all interleavings."
  },
  {
   "property": "C62",
   "status": "proved",
   "theorems": [
    "C62_wake",
    "C62_ack"
   ],
   "note": "On the wire, for every state, after a wake-up and after an acknowledgement."
  },
  {
   "property": "C63",
   "status": "partial",
   "theorems": [
    "C63_lost_refuted",
    "C63_partial"
   ],
   "note": "Refuted: a message whose delivery is not acknowledged is gone. Partial: messages leave their queue only by being handed over for delivery."
  },
  {
   "property": "C64",
   "status": "partial",
   "theorems": [
    "C64_period_refuted",
    "C64_ends_refuted",
    "C64_say_partial",
    "C64_prompt_partial",
    "C64_stops_partial"
   ],
   "note": "Refuted: the time a heartbeat takes is added to the period; a heartbeat that raises ends them. Partial: contents, ping every tenth, at least 60 s apart; exactly every 60 s when sending takes no time and does not raise; none after an acknowledged delivery."
  },
  {
   "property": "C65",
   "status": "proved",
   "theorems": [
    "C65_restored",
    "C65_attributes"
   ],
   "note": "For every node state and every later node object: loading succeeds, versions come back for every command class, and every number, text, node list or table reachable by any path of attribute names and keys comes back for the six named classes. PyYAML is modelled as the same tree with text scalars. C65_attributes: the attributes concerned are among the stored ones."
  },
  {
   "property": "C66",
   "status": "partial",
   "theorems": [
    "C66_refuted",
    "C66_partial"
   ],
   "note": "False as stated: the flag is stored as the text 'false' and bool('false') is True, so an uninterviewed class comes back interviewed (C66_refuted). Proved: every stored class comes back as interviewed, so the flag survives exactly when it was set."
  },
  {
   "property": "C67",
   "status": "partial",
   "theorems": [
    "C67_refuted",
    "C67_partial"
   ],
   "note": "False as stated: opening the file truncates it, and loading the empty file raises AttributeError (C67_refuted). Proved for every state: a crash before opening leaves the old state, a crash after the last write the new one, a crash right after opening always loses both, and files of other nodes are unaffected at every crash point."
  },
  {
   "property": "C68",
   "status": "proved",
   "theorems": [
    "C68_paths",
    "C68_others"
   ],
   "note": "Paths are injective in (node, endpoint); a save, complete or interrupted anywhere, changes no other file."
  },
  {
   "property": "C69",
   "status": "proved",
   "theorems": [
    "C69_update"
   ],
   "note": "Proved for every previous state, list and answer, for updates that run undisturbed: no other task that can change the table acts meanwhile and the adapter keeps its id (overlapping updates are the subject of C70). A table entry of the controller itself survives only if it was there before. The theorem gives the exact table, which objects are kept, which are built from the adapter's answers, and the exact list of announcements."
  },
  {
   "property": "C70",
   "status": "partial",
   "theorems": [
    "C70_refuted",
    "C70_table_refuted",
    "C70_partial",
    "C70_same_list_partial"
   ],
   "note": "False as stated. C70_refuted: two overlapping updates with the same list, no await fails, and one of them ends with KeyError. C70_table_refuted: both complete, but the one with the older list re-adds a node the newer list no longer has. C70_partial: in every execution an update can only fail by an exception of the adapter or a listener, by a class list ending in 0xF1, or by KeyError after another task deleted a key of an unlisted node. C70_same_list_partial: any number of overlapping updates that see the same list leave exactly the right nodes once one of them has completed (nothing is said about which object or which end points a doubly loaded node keeps)."
  },
  {
   "property": "C71",
   "status": "proved",
   "theorems": [
    "C71_routed"
   ],
   "note": "Everything the routing task ever does is given as a function of the table at the call and of the results of its awaits: the message is handed once to the object of (n, e), which carries that id; otherwise it is only offered to the listeners (messages of the controller) or ignored."
  },
  {
   "property": "C72",
   "status": "proved",
   "theorems": [
    "C72_cache",
    "C72_uncached"
   ],
   "note": "Reports that carry a value and a size (see C21 for their bytes). C72_uncached: a read with cached=False always asks the node."
  },
  {
   "property": "C73",
   "status": "proved",
   "theorems": [
    "C73_sensor_interview"
   ],
   "note": "With the bytes of the requests; the node answers each request."
  },
  {
   "property": "C74",
   "status": "proved",
   "theorems": [
    "C74_association_interview"
   ],
   "note": "Interview of a node whose groups are not known yet; the lifeline part is described by C55. Time outs and complete answers; other errors end the interview."
  },
  {
   "property": "C75",
   "status": "partial",
   "theorems": [
    "C75_collision_refuted",
    "C75_accepted_partial",
    "C75_burst_partial",
    "C75_parity_partial"
   ],
   "note": "Refuted: two different messages can have equal CRC-16 checksums (e.g. two values of one configuration parameter). Partial: never so for messages that differ only in two neighbouring bytes, or in the parity of their bits."
  },
  {
   "property": "C76",
   "status": "partial",
   "theorems": [
    "C76_commands_refuted",
    "C76_partial"
   ],
   "note": "False for the command lists: the numbers come back as text (C76_commands_refuted). Proved: group names, profiles and the set of groups come back, and each command list comes back with every number replaced by its decimal text."
  },
  {
   "property": "C77",
   "status": "proved",
   "theorems": [
    "C77_reports"
   ],
   "note": "For every message the adapter passes on: what the listeners were told is always a prefix of the prescribed list, and is that list when the call returns; the returned flag is given as well."
  },
  {
   "property": "C78",
   "status": "partial",
   "theorems": [
    "C78_refuted",
    "C78_partial"
   ],
   "note": "False as stated: C78_refuted shows an update that finds a new node while start-up announces its nodes making start-up fail with RuntimeError (dictionary changed size during iteration). C78_partial proves the rest for a start-up from an empty table that nothing else changing the table runs beside and that ends without an error, for a list without duplicates."
  },
  {
   "property": "C79",
   "status": "partial",
   "theorems": [
    "C79_refuted",
    "C79_partial"
   ],
   "note": "False as stated: C79_refuted shows a node that is loaded by an update which then fails on the malformed class list of the next node; a later, successful update takes it for known and it is never announced. C79_partial proves, for every interleaving, that each object in the table was announced by the update or start-up that put it there if that one ended without an error (loadNode called directly does not announce)."
  },
  {
   "property": "C80",
   "status": "partial",
   "theorems": [
    "C80_refuted",
    "C80_never_false_refuted",
    "C80_prompt_partial"
   ],
   "note": "False as stated: C80_refuted is a run in which nothing was ever received and removeNode returns True after 3 s (send returns False instead of raising TimeoutError, and its result is ignored); C80_never_false_refuted proves that False is never returned for parameters in range. C80_prompt_partial proves, for every interleaving, that a command that returns has made exactly one send with the right bytes, and that the gateway acknowledged it whenever the send took less than 3 s."
  },
  {
   "property": "C81",
   "status": "partial",
   "theorems": [
    "C81_late_refuted",
    "C81_shared_refuted",
    "C81_partial",
    "C81_run_partial"
   ],
   "note": "False as stated: C81_late_refuted (the late report on node 5, with the sequence number of that request, is returned by getNodeInfo(6)) and C81_shared_refuted (two concurrent queries return the same report); sequence numbers of reports are ignored. C81_partial proves for every interleaving that the result is (a field of) a report of the right kind received after the request was made, the first one if nobody else waits for such reports, or the default after a time-out, and then no such report came in time; C81_run_partial gives the full course of every request. A report without the field that is read is left open (decoded reports have all fields, C02)."
  },
  {
   "property": "C82",
   "status": "partial",
   "theorems": [
    "C82_unknown_refuted",
    "C82_refresh_refuted",
    "C82_none_refuted",
    "C82_phantom_refuted",
    "C82_partial",
    "C82_name_partial",
    "C82_commands_partial"
   ],
   "note": "False as stated: C82_unknown_refuted (a command list for an unknown group raises KeyError), C82_refresh_refuted (a repeated info report drops name and commands), C82_none_refuted (a name report cut off after the group number names the group \"None\"), C82_phantom_refuted (an info report that is cut off makes a group 0 known). C82_partial gives the exact contents of the table after any interleaving of complete reports, C82_name_partial and C82_commands_partial the results of the handlers."
  },
  {
   "property": "C83",
   "status": "partial",
   "theorems": [
    "C83_refuted",
    "C83_partial"
   ],
   "note": "False as stated: C83_refuted (one send that raises ends the handler; the groups listed later stay unknown). C83_partial: the requests of a handler are always a prefix of the expected ones, all of them if it ends normally, and then all groups are known; it fails only if one of its sends raised, and it never gets stuck. A send that returns False is not repeated."
  },
  {
   "property": "C84",
   "status": "partial",
   "theorems": [
    "C84_refuted",
    "C84_partial"
   ],
   "note": "False as stated: C84_refuted (the settings are saved when the interview's request has been sent; the reports that follow are never saved, and the class counts as interviewed after the restart). C84_partial: what was known at the last save is restored, the commands as texts (C76)."
  },
  {
   "property": "C85",
   "status": "partial",
   "theorems": [
    "C85_refuted",
    "C85_partial",
    "C85_prompt_partial"
   ],
   "note": "False as stated: C85_refuted (requestVersion does not look at requestedCommandClass; a report that comes after the 3 s of one class is recorded for the next class asked about). C85_partial: the version is the last value returned to a version question about the class, in a message that came after the question was acknowledged. C85_prompt_partial: with one version question at a time and a node that only reports on the class asked about last, the report names the class."
  },
  {
   "property": "C86",
   "status": "partial",
   "theorems": [
    "C86_refuted",
    "C86_partial"
   ],
   "note": "False as stated: C86_refuted (a report cut short raises TypeError, which ends Node.interview). C86_partial: the classes visited are always a prefix of the supported ones in order, all of them if the call returns; it never fails with a time out, and if it fails the exception is that of one of its requests, of an interview of a class left to the environment (Association, AssociationGrpInfo, SensorMultilevel), or TypeError after a cut report."
  },
  {
   "property": "C87",
   "status": "partial",
   "theorems": [
    "C87_refuted",
    "C87_partial",
    "C87_complete_partial"
   ],
   "note": "False as stated: C87_refuted (a repeated interview answered by a cut report leaves attributes of two reports). C87_partial: each attribute is the value last returned to the class's own question, in a message that came after the question was acknowledged. C87_complete_partial: all are those of the last report if that report was complete."
  },
  {
   "property": "C88",
   "status": "partial",
   "theorems": [
    "C88_flag_refuted",
    "C88_attrs_refuted",
    "C88_partial"
   ],
   "note": "False as stated: C88_flag_refuted (a repeated interview that times out takes the flag away silently), C88_attrs_refuted (a cut report changes attributes silently). C88_partial: without a signal the version is unchanged, no flag is set, and the attributes are unchanged unless a cut report was returned in that step."
  },
  {
   "property": "C89",
   "status": "proved",
   "theorems": [
    "C89_interviewed"
   ],
   "note": "For the three classes whose interviews are copies of a report. Starts from any classes whose attributes are numbers if present, and complete where the flag is set."
  },
  {
   "property": "C90",
   "status": "proved",
   "theorems": [
    "C90_sent",
    "C90_received"
   ],
   "note": "The table (SpecLayout.v) is separate from the class declarations of the model. 83 rows are covered in both directions; rows carrying association members or a command are covered for sending (receiving: C03, C14, C18)."
  },
  {
   "property": "C91",
   "status": "partial",
   "theorems": [
    "C91_refuted",
    "C91_partial"
   ],
   "note": "False as stated: neither the node nor the sequence number of a report is looked at, so a late report that node 5 was removed makes remove() of node 6 return True (C91_refuted). Proved: one request about this node; True exactly if the report it got after the request says DONE, which is the first such report if nobody else waits for one; False after ten seconds without a report."
  },
  {
   "property": "C92",
   "status": "proved",
   "theorems": [
    "C92_delivery"
   ],
   "note": "Transports are the environment; closed transports deliver nothing. C92_two_roles shows that the hypothesis (one role) is needed."
  },
  {
   "property": "C93",
   "status": "partial",
   "theorems": [
    "C93_refuted",
    "C93_partial",
    "C93_only_partial"
   ],
   "note": "False: after stop() or the loss of the socket send() still returns True and the bytes are dropped (C93_refuted). Proved: False exactly if nothing was opened; True means the bytes were passed to the socket opened last and went out exactly if that socket was neither closed nor lost; nothing else writes."
  },
  {
   "property": "C94",
   "status": "partial",
   "theorems": [
    "C94_stop_refuted",
    "C94_lost_refuted",
    "C94_early_refuted",
    "C94_partial",
    "C94_close_partial"
   ],
   "note": "False: after two connects stop() leaves the first socket open and delivering (C94_stop_refuted); the task waiting for the loss of the old socket closes the new one (C94_lost_refuted); stop() while connecting raises AttributeError and the socket opens afterwards (C94_early_refuted). Proved for objects opened once."
  },
  {
   "property": "C95",
   "status": "partial",
   "theorems": [
    "C95_refuted",
    "C95_partial",
    "C95_uncached_partial"
   ],
   "note": "False: set() does not touch the cache, so get() with the (default) cache returns the old value after set() (C95_refuted). Proved for every session against a device that stores what SET frames say: the exact result of every call (values that do not fit, negative ones included, raise OverflowError and change nothing), and that without the cache every read gives the value set last."
  },
  {
   "property": "C96",
   "status": "proved",
   "theorems": [
    "C96_send",
    "C96_returns"
   ],
   "note": "Joins the story of a send task with the connection theorems C23-C25; the connection is open when it is used (exec_framed). Ranges: destination end point 0..127 and a command that encodes. Acknowledgements are matched by packet number only, as in the code."
  },
  {
   "property": "C97",
   "status": "partial",
   "theorems": [
    "C97_refuted",
    "C97_partial",
    "C97_flag_partial",
    "C97_saved_partial"
   ],
   "note": "False as stated: interview() ignores what send returned, so a request that the node refused still counts as an interview, is marked and saved (C97_refuted). Proved instead, for every execution: the one request and its bytes, the exact end of every interview as a function of the end of its send, the flag as a function of the trace, and the save right before a successful end."
  },
  {
   "property": "C98",
   "status": "partial",
   "theorems": [
    "C98_none_refuted",
    "C98_replaced_refuted",
    "C98_partial",
    "C98_order_partial"
   ],
   "note": "False as stated: the thread reads the callback twice, so a callback that is removed or replaced in between makes the event loop call None (TypeError) or passes the packet to another callback (C98_none_refuted, C98_replaced_refuted). Proved: with a callback that is not changed once packets are read everything holds, including that all packets are delivered if the threads just go on; and for every execution what is delivered is a subsequence of what was read."
  },
  {
   "property": "C99",
   "status": "partial",
   "theorems": [
    "C99_lost_refuted",
    "C99_one_more_refuted",
    "C99_partial",
    "C99_alive_partial"
   ],
   "note": "False as stated: a stop() before the thread has set its flag, even one after connect() has returned, is lost and the thread delivers packets for ever; a stop() during a read lets one more packet through; the socket stays writable (C99_lost_refuted, C99_one_more_refuted). Proved: once a packet has been read, at most one more is read after stop(); the thread ends only by stop(), an error of the socket or a failed start."
  },
  {
   "property": "C100",
   "status": "partial",
   "theorems": [
    "C100_again_refuted",
    "C100_lost_refuted",
    "C100_partial",
    "C100_timeout_partial",
    "C100_once_partial",
    "C100_returns_partial",
    "C100_write_partial",
    "C100_send_partial"
   ],
   "note": "False as stated: an object cannot be connected a second time (RuntimeError), and send() before the handshake drops the bytes silently (C100_again_refuted, C100_lost_refuted). Proved: connect() returns only after the handshake and can always go on after it, TimeoutError only after ten seconds, RuntimeError only on an object that was used, nothing is written before the handshake and every send() that returns afterwards has written its bytes."
  },
  {
   "property": "C101",
   "status": "partial",
   "theorems": [
    "C101_unknown_refuted",
    "C101_overlap_refuted",
    "C101_partial",
    "C101_marked_partial",
    "C101_flag_partial",
    "C101_alone_partial"
   ],
   "note": "False as stated: interview() returns None both after a success and when the version of the class was not learnt (C101_unknown_refuted), and an interview that returns False does not undo the success of an overlapping one (C101_overlap_refuted). Proved instead, for every execution: the result of interview() as a function of how the class's own interview and the version question ended, the state of the flag when it returns, when the flag changes at all, and that after False the class does not count as interviewed if no other interview of it was started."
  },
  {
   "property": "C102",
   "status": "proved",
   "theorems": [
    "C102_load",
    "C102_known",
    "C102_table"
   ],
   "note": "The questions, objects, writes and outcome are given as a function of the adapter's answers alone, whatever else runs. C102_table shows that the observed writes and removals are what the table holds; C102_known that the stored objects are the known ones as long as no other task touches this node."
  },
  {
   "property": "C103",
   "status": "proved",
   "theorems": [
    "C103_alive",
    "C103_few",
    "C103_ends",
    "C103_in_time"
   ],
   "note": "C103_alive, C103_few and C103_ends hold for every schedule: no call depends on another call or on the peer to end. C103_in_time is about event loops that run what can run before the clock moves on. The bound counts announced extensions (ORearm), as the code honours them without limit."
  },
  {
   "property": "C104",
   "status": "proved",
   "theorems": [
    "C104_loads",
    "C104_absent",
    "C104_place"
   ],
   "note": "Files are the values PyYAML could have written, read back with BaseLoader. 'interviewed' counts as true unless it is an empty text or collection, as in C66; lists of numbers come back as texts, as in C76."
  },
  {
   "property": "C105",
   "status": "partial",
   "theorems": [
    "C105_refuted",
    "C105_partial"
   ],
   "note": "False: the loop in nodeAdded has no handler, so the first entry that cannot be read ends the loading with an exception (C105_refuted: a version that is not a number). C105_partial says exactly what is loaded: the classes before it, in the node's order, as if they were alone; the ones after it are untouched."
  },
  {
   "property": "C106",
   "status": "proved",
   "theorems": [
    "C106_alive",
    "C106_few",
    "C106_ends",
    "C106_in_time"
   ],
   "note": "How the send ends is left to the environment here (NEvSent); a send through a connection ends by C103. C106_alive, C106_few and C106_ends hold for every schedule, C106_in_time for event loops that run what can run before the clock moves on. The patience is the time out, 0 if that is negative."
  },
  {
   "property": "C107",
   "status": "proved",
   "theorems": [
    "C107_alive",
    "C107_ends",
    "C107_in_time"
   ],
   "note": "C107_alive and C107_ends hold for every schedule. In C107_ends the outcome of opening each socket is given in advance (net) and every event is time, a socket of this task or a timer or wake up of a call it made. C107_in_time is for event loops that run what can run before the clock moves on; the sum is over the calls the task made on connections, each counted as in C103. Opening a socket is an event of the environment: how long the operating system or a DTLS handshake takes is not modelled."
  },
  {
   "property": "C108",
   "status": "partial",
   "theorems": [
    "C108_refuted",
    "C108_partial",
    "C108_command_partial",
    "C108_given_partial"
   ],
   "note": "Refuted: the address of a node may be taken from the advertisement for another one when two are asked for at the same time (C42_refuted), so that the answer of node 5 is returned as that of node 6. The partial theorems say everything else, with 'sent from an address the gateway found when it asked for this node' in place of 'sent from this node's address'. Composition of the models of the gateway (all calls), the application's table and every node object's requests; the handling of a message is a task that begins any time later. C108_command_partial is for end points 0 to 127 and commands that can be encoded, as C96. Cancelling a node's request is not part of this composition (C38, C39, C106 have it)."
  },
  {
   "property": "C109",
   "status": "partial",
   "theorems": [
    "C109_refuted",
    "C109_link_partial",
    "C109_port_partial",
    "C109_once",
    "C109_given",
    "C109_partial"
   ],
   "note": "Refuted: two requests of one node at the same time may open two connections, the gateway keeps the second, and the report that arrives on the first is dropped (C41_refuted). C109_link_partial is for the connection the gateway keeps, on which only the gateway made calls; C109_port_partial is for an address listed for one node, and not for a node list report. C109_once and C109_given hold for every run. C109_partial counts from the time the message is handled, which in the model is any time after it was announced. An announcement for an end point the table does not hold is dropped, which C109_given excludes by its hypothesis entered."
  },
  {
   "property": "C110",
   "status": "proved",
   "theorems": [
    "C110_total",
    "C110_lines",
    "C110_unique"
   ],
   "note": "C110_total: everything that decodes can be described. C110_lines: heading, one line per attribute received, in order, numbers and enum names as stated, nested messages likewise. C110_unique: a text tells at most one number, so the number in a line is the one received. Texts, floats, IP addresses, IntFlag names, set order and object addresses are printed by python itself and are parameters. Two reserved attributes of the same name share one value, so both their lines show the last one (width of the first)."
  },
  {
   "property": "C111",
   "status": "proved",
   "theorems": [
    "C111_alive",
    "C111_ends",
    "C111_in_time",
    "C111_bound"
   ],
   "note": "C111_alive and C111_ends hold for every schedule. In C111_ends the outcome of opening each socket is given in advance (net) and every event is time, what the gateway's task that sends the command needs, or a timer or wake up of the request itself. C111_in_time and C111_bound are for event loops that run what can run before the clock moves on and open sockets at once; messages may wait to be handled for as long as it takes. The extensions in C111_bound are those of C25: the delay announced for that very send (120 s if negative) plus 60 s. Nothing bounds how often the other side may announce one. Cancellation of a request is not an event of this model."
  },
  {
   "property": "C112",
   "status": "partial",
   "theorems": [
    "C112_frames_refuted",
    "C112_overlap_refuted",
    "C112_partial",
    "C112_asked_partial",
    "C112_cause_partial",
    "C112_prompt_partial"
   ],
   "note": "Refuted: reportsToFollow is ignored, so the second report of a long list is taken for the answer about the next group and dropped (C112_frames_refuted); a second interview that hears of more groups while the first walks the table ends the first with RuntimeError although every question was answered (C112_overlap_refuted). The _partial theorems give the rest of the statement: the table (with freshness of the answers), which groups are asked for, every reason why the interview can raise (C112_cause_partial names the overlap), and, with one question at a time and a node that reports only the group asked about last, that each group holds what its last answer says."
  },
  {
   "property": "C113",
   "status": "partial",
   "theorems": [
    "C113_refuted",
    "C113_partial",
    "C113_asked_partial",
    "C113_cause_partial",
    "C113_prompt_partial"
   ],
   "note": "Refuted: sensorType of a scale report is not checked, so a repeated report about sensor 1 is recorded for sensor 2. C113_partial says what is recorded instead (the last answer to a question about the sensor, received after the question was acknowledged); C113_prompt_partial says when it is about the sensor. The order of the sensors is a parameter of the call (python's set order)."
  },
  {
   "property": "C114",
   "status": "partial",
   "theorems": [
    "C114_refuted",
    "C114_partial",
    "C114_done_partial",
    "C114_back_partial"
   ],
   "note": "Refuted: node.send returns False when the command was not acknowledged, this is ignored, and nothing looks at the members read back, so the interview returns with the controller missing. C114_partial: sent only if missing, and which command; C114_done_partial: an interview that returns without having sent it found the controller there (or no group 1, or no Z-Wave Plus node); C114_back_partial: otherwise it got an answer to a question for group 1 asked after sending."
  },
  {
   "property": "C115",
   "status": "partial",
   "theorems": [
    "C115_refuted",
    "C115_gone_refuted",
    "C115_partial",
    "C115_table_partial"
   ],
   "note": "Refuted: connect() returns with a gateway that never says anything (C115_refuted: time outs of the mode and the node list and a missing acknowledgement of the destination are swallowed), and fails with KeyError when a node list without a node it is about to look up arrives meanwhile (C115_gone_refuted). The destination is the fixed address ::ffff:192.168.0.49, whatever the address of the host. C115_partial: the exact course of connect() in every run; C115_table_partial: undisturbed, it raises only what a step raised, and when it returns exactly the listed nodes are known, with the address they had or the one found."
  },
  {
   "property": "C116",
   "status": "proved",
   "theorems": [
    "C116_ends",
    "C116_few",
    "C116_few_sensors",
    "C116_in_time"
   ],
   "note": "C116_ends from every reachable state with an open interview, C116_few and C116_few_sensors count questions and commands, C116_in_time bounds the time in runs whose event loop does not fall behind. A task that awaits a request that somebody cancels ends as well (the request raises)."
  },
  {
   "property": "C117",
   "status": "proved",
   "theorems": [
    "C117_ends",
    "C117_few",
    "C117_in_time",
    "C117_in_all"
   ],
   "note": "C117_ends from every reachable state with an open interview, C117_few counts questions and other interviews, C117_in_time bounds the time by what was asked and C117_in_all by the list of classes alone. That the interviews of associations and sensors end is C116."
  },
  {
   "property": "C118",
   "status": "proved",
   "theorems": [
    "C118_ends",
    "C118_few"
   ],
   "note": "C118_ends from every reachable state, C118_few counts questions, answers and ends. The time sending takes is the environment's; with C116 it covers the interviews C117 leaves to the environment."
  },
  {
   "property": "C119",
   "status": "proved",
   "theorems": [
    "C119_ends",
    "C119_ready"
   ],
   "note": "C119_ends for runs without end, C119_ready that a call which has not ended can be answered. That the adapter's calls end is C103 and C107. The loop over the table in startup() makes at most as many rounds as the table had entries when it began: python raises RuntimeError if the size changed, and CPython 3.8 and later also if more entries come up than there were."
  },
  {
   "property": "C120",
   "status": "partial",
   "theorems": [
    "C120_refuted",
    "C120_late_refuted",
    "C120_other_refuted",
    "C120_cached_partial",
    "C120_fresh_partial",
    "C120_partial"
   ],
   "note": "False of the code: a read takes any report. C120_refuted: two overlapping reads, a node that answers both and nothing else; both return the first answer. C120_late_refuted: one read at a time, the answer to a read that timed out is taken for the next one's. C120_other_refuted: a single read, a report the node sends of its own accord. Proved instead: C120_cached_partial what is asked or taken from the table, C120_fresh_partial that the value is from a report received after the question was acknowledged, C120_partial that it is the right one if no other parameter is reported between question and return. The model assumes that the node supports the class."
  },
  {
   "property": "C121",
   "status": "partial",
   "theorems": [
    "C121_refuted",
    "C121_node_partial",
    "C121_end_partial",
    "C121_partial"
   ],
   "note": "The last sentence is false of the code: an end point keeps referring to the object of the load that created it. C121_refuted: start-up and a node list update load the same node at the same time and the second load fails after replacing the node's object. Proved instead: C121_node_partial and C121_end_partial the first sentence for all executions, the latter also where an end point's basic class and listening flag come from, C121_partial the last sentence for nodes loaded once."
  },
  {
   "property": "C122",
   "status": "partial",
   "theorems": [
    "C122_refuted",
    "C122_ack_refuted",
    "C122_asked_partial",
    "C122_pushed_partial",
    "C122_partial"
   ],
   "note": "False of the code: queues are kept by handle alone. C122_refuted: another node that uses the same handle gets the message. C122_ack_refuted: even if no two nodes use the same handle, an acknowledgement without a handle pops the queue of whichever node woke up last. Proved instead: C122_asked_partial and C122_pushed_partial, for all executions, that a delivery answers the node that asked for that queue and that the message was pushed to the queue before; C122_partial the property when all messages about a queue come from one node."
  },
  {
   "property": "C123",
   "status": "partial",
   "theorems": [
    "C123_refuted",
    "C123_early_refuted",
    "C123_reuse_refuted",
    "C123_last_partial",
    "C123_partial"
   ],
   "note": "False of the code in two ways. C123_refuted: the storage listens to a node object from its creation but loads it only when it is added; a configuration report in between saves the blank object over the file (C123_early_refuted: the application does hand over such reports). C123_reuse_refuted: files of removed nodes stay, so that another device with the same id gets the former one's versions, attributes and interviewed flags. Proved instead: C123_last_partial, in every history a node that is added gets what was saved last under its id; C123_partial, the property when nothing is saved between creation and addition and the id was not given up. Interrupted saves are C67."
  },
  {
   "property": "C124",
   "status": "partial",
   "theorems": [
    "C124_refuted",
    "C124_once_partial",
    "C124_ends_partial",
    "C124_partial",
    "C124_ignored_partial"
   ],
   "note": "False of the code: an acknowledgement without a queue handle before any wake-up raises TypeError (C124_refuted). Proved for all executions: C124_once_partial and C124_ends_partial the first half; C124_partial that exceptions otherwise come from the adapter; C124_ignored_partial the last sentence."
  },
  {
   "property": "C125",
   "status": "partial",
   "theorems": [
    "C125_refuted",
    "C125_partial"
   ],
   "note": "False of the code: sequence numbers of received packets are not remembered, so a packet repeated half a second later is acknowledged and acted on again (C125_refuted). Proved for all executions (C125_partial): each command handed on follows a packet of its own from an address listed at that time, with nothing but its acknowledgement in between, so a command is handed on at most as often as it was received."
  },
  {
   "property": "C126",
   "status": "partial",
   "theorems": [
    "C126_refuted",
    "C126_stale_refuted",
    "C126_partial"
   ],
   "note": "The second sentence is false of the code: a node list in an unsolicited packet is believed whatever address it comes from (C126_refuted: after connect(), a packet from any address removes a node), and a node whose address is being looked up is added when the answer comes although a later report has dropped it (C126_stale_refuted). The first sentence is proved for all executions (C126_partial)."
  },
  {
   "property": "C127",
   "status": "partial",
   "theorems": [
    "C127_refuted",
    "C127_found_partial",
    "C127_partial"
   ],
   "note": "False of the code: connections are kept by node id for ever, also when the node leaves, so a node that joins again with another address is sent commands to the old one (C127_refuted). Proved for all executions: the second half (C127_found_partial), and that connections and table agree for a node whose look ups all find the same address (C127_partial)."
  },
  {
   "property": "C128",
   "status": "proved",
   "theorems": [
    "C128_order",
    "C128_gateway",
    "C128_all"
   ],
   "note": "Proved for all executions of the connection (C128_order) and of the gateway with its node connections (C128_gateway); C128_all spells out that nothing is left out when no call waits."
  },
  {
   "property": "C129",
   "status": "partial",
   "theorems": [
    "C129_refuted",
    "C129_partial",
    "C129_key_refused",
    "C129_key_cut",
    "C129_cut"
   ],
   "note": "False of the code: any metadatum of an unknown type, critical or not, makes the whole report undecodable, key included (C129_refuted, for all such reports). C129_partial: all reports whose metadata have known types decode to exactly what they carry, the last of several of one type winning; an empty key with metadata is stored as an empty key. The critical flag is not kept by the code. C129_key_refused, C129_key_cut: reports announcing a key of another length, or with a cut key, are refused. C129_cut: reports that end inside a metadatum raise end-of-file."
  },
  {
   "property": "C130",
   "status": "proved",
   "theorems": [
    "C130_decoded",
    "C130_one"
   ],
   "note": "That the length counts seven bytes besides the classes is taken from the code (NetworkManagementInclusion.py l.243) and its tests, not from the Z-Wave specification. When no byte follows the fixed part the attribute is absent rather than an empty list."
  },
  {
   "property": "C131",
   "status": "proved",
   "theorems": [
    "C131_same",
    "C131_cut"
   ],
   "note": "For all enclosed byte strings, including those that do not decode. The interpreter's own recursion limit is not modelled (see DESIGN.md; C07 bounds the nesting). C131_cut: requests with fewer bytes than announced raise end-of-file."
  },
  {
   "property": "C132",
   "status": "proved",
   "theorems": [
    "C132_short",
    "C132_long"
   ],
   "note": "Both formats, all contents. Other lengths are covered by C02 and C07 only."
  }
 ]
}