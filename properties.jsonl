{"id": "C01", "title": "Wire layout of every composed message", "statement": "For every registered message class whose attributes are bit fields, integers, byte strings, DSKs, IPv6 addresses or nested messages, composing a message whose attribute values fit their declared widths yields exactly: the command class byte, the command byte, then every attribute in declaration order, most significant bit first, with no gaps, unset attributes being written as their declared default or zero only where the class allows it.", "quantifier": "every registered message class, every assignment of in-range attribute values (including byte strings of any length)", "why_tests_cant": "The value space of even one class is astronomically large; tests fix one frame per class and cannot show that fields never overlap or shift for other values.", "anchors": ["pyzwave/message.py:Message.compose", "pyzwave/types.py:BitStreamWriter", "pyzwave/types.py:BitsBase.serialize", "pyzwave/types.py:int_t.serialize"]}
{"id": "C02", "title": "Decoding reads every attribute from its own bits", "statement": "For every byte string that starts with a registered command, decoding yields a message of exactly the registered class whose attributes are the values of consecutive, non overlapping bit ranges of the payload in declaration order; attributes that lie entirely beyond the end of the payload are absent and read as their default, and a multi-byte integer cut in the middle makes the decoder raise end-of-file.", "quantifier": "every byte string of every length, every message class with a flat layout", "why_tests_cant": "Unit tests decode a handful of literal frames; truncations at every position and all bit patterns cannot be enumerated.", "anchors": ["pyzwave/message.py:Message.deserialize", "pyzwave/util.py:AttributesMixin.parseAttributes", "pyzwave/types.py:BitStreamReader"]}
{"id": "C03", "title": "Decode inverts compose", "statement": "For every encodable message with in-range attribute values, decoding the composed bytes returns a message of the same class on which every attribute reads the same as on the original, including messages wrapped in any depth of Z/IP packets without header extension.", "quantifier": "every message of every class with a symmetric codec, every in-range attribute assignment, every nesting depth of Z/IP encapsulation", "why_tests_cant": "Round-trip must hold for unboundedly many payloads and nesting depths.", "anchors": ["pyzwave/message.py:Message", "pyzwave/types.py", "pyzwave/commandclass/Zip.py:ZipPacket"]}
{"id": "C04", "title": "Out-of-range field values are rejected", "statement": "Composing a message in which some attribute value does not fit its declared width raises an exception; it never produces a frame in which another attribute is altered.", "quantifier": "every message class, every attribute, every out-of-range integer value", "why_tests_cant": "Needs all out-of-range values at all bit positions; tests only use valid values.", "anchors": ["pyzwave/types.py:BitStreamWriter.addBits", "pyzwave/types.py:BitStreamWriter.addBytes"]}
{"id": "C05", "title": "Unknown and too short frames decode to the unknown message", "statement": "A frame shorter than two bytes decodes to the unknown message with id 0; a frame whose first two bytes are not a registered command decodes to the unknown message carrying exactly that 16 bit id; no other frame decodes to an unknown message.", "quantifier": "every byte string", "why_tests_cant": "Ranges over all byte strings and all 65536 ids against the registry.", "anchors": ["pyzwave/message.py:Message.deserialize", "pyzwave/message.py:UnknownMessage"]}
{"id": "C06", "title": "Command registry is a bijection", "statement": "No two message classes share a (command class, command) pair, decoding a frame produces a message whose id is the frame's first two bytes, and composing any registered message starts with the id of its own class.", "quantifier": "every pair of registered classes, every decodable frame, every composable message", "why_tests_cant": "A collision shows only when the shadowed class is received; tests per class overwrite the registry entry they need.", "anchors": ["pyzwave/commandclass/__init__.py:registerCmdClass", "pyzwave/message.py:Message.hid", "pyzwave/commandclass/__init__.py:ZWaveMessage"]}
{"id": "C07", "title": "Decoding always terminates with bounded nesting", "statement": "Decoding any byte string terminates: the nesting depth of encapsulated commands is at most half the length of the frame plus one, and the result does not depend on any recursion allowance above that bound; the only outcomes are a message or one of a fixed set of exceptions.", "quantifier": "every byte string", "why_tests_cant": "Termination and depth bounds quantify over all inputs including malformed nested headers that rewind the stream.", "anchors": ["pyzwave/message.py:Message.deserialize", "pyzwave/commandclass/Zip.py:HeaderExtension.deserialize", "pyzwave/commandclass/Supervision.py:Get.parse_command"]}
{"id": "C08", "title": "Bit reader returns what the bit writer wrote", "statement": "Writing any sequence of sub-byte fields (none crossing a byte boundary) and whole integers and then reading fields of the same sizes in the same order returns the written values, and the written bytes are exactly the most-significant-first concatenation of the fields. Reading whole bytes returns the next bytes and fails if there are too few; reading all that remains returns it and leaves nothing to read.", "quantifier": "every sequence of writes of any length with in-range values", "why_tests_cant": "Arbitrary sequences of writes interact through the shared partially filled byte.", "anchors": ["pyzwave/types.py:BitStreamReader", "pyzwave/types.py:BitStreamWriter"]}
{"id": "C09", "title": "Z/IP header extension options are decoded individually", "statement": "For a header extension made of well formed options the decoder returns, for each option type, the value encoded by the last option of that type: expected delay as 24 bit signed seconds, encapsulation info bits, and maintenance report elements; the command following the extension is decoded from the byte right after the declared extension length.", "quantifier": "every list of well formed options of any length followed by any payload", "why_tests_cant": "Option lists are unbounded and interleave types.", "anchors": ["pyzwave/commandclass/Zip.py:HeaderExtension.deserialize", "pyzwave/commandclass/Zip.py:ZIPPacketOption", "pyzwave/commandclass/Zip.py:ZIPPacketOptionMaintenanceReport"]}
{"id": "C10", "title": "Unknown non-critical header options do not hide the packet", "statement": "A Z/IP packet that carries a non-critical header option this library does not know is still decoded: the command it carries is delivered as if the option was absent.", "quantifier": "every option type and option payload, every command", "why_tests_cant": "Ranges over all option type codes and payloads; tests only use known ones.", "anchors": ["pyzwave/commandclass/Zip.py:HeaderExtension.deserialize", "pyzwave/commandclass/Zip.py:ZIPPacketOption.parse_optionData"]}
{"id": "C11", "title": "Node list bitmask", "statement": "In a decoded node list report node id n (1..224) is present if and only if bit (n-1) mod 8 of the ((n-1) div 8)-th mask byte is set, no other id is ever present, and a node list shorter than 28 mask bytes is rejected.", "quantifier": "every mask of every length, every node id", "why_tests_cant": "2^224 masks.", "anchors": ["pyzwave/commandclass/NetworkManagementProxy.py:NodeList.deserialize"]}
{"id": "C12", "title": "All 232 node ids of a node list are seen", "statement": "Every node id from 1 to 232 whose bit is set in the 29 byte mask of a node list report is in the decoded node list.", "quantifier": "every 29 byte mask, every node id 1..232", "why_tests_cant": "Only networks with node ids above 224 show the difference.", "anchors": ["pyzwave/commandclass/NetworkManagementProxy.py:NodeList.deserialize"]}
{"id": "C13", "title": "Supported sensor bitmask", "statement": "In a decoded supported sensor report sensor type t is present if and only if bit (t-1) mod 8 of mask byte (t-1) div 8 is set, for masks of any length.", "quantifier": "every mask of every length, every sensor type", "why_tests_cant": "Masks of several bytes with arbitrary contents; tests use one single byte mask.", "anchors": ["pyzwave/commandclass/SensorMultilevel.py:SensorSupported.deserialize"]}
{"id": "C14", "title": "Association member lists round-trip", "statement": "Encoding an association member list and decoding it again returns the plain node members in their order followed by the endpoint members in their order, for any list with non-zero plain node ids; storing the list as text and loading it back returns exactly the same list.", "quantifier": "every list of (node, optional endpoint) of any length with ids in 0..255", "why_tests_cant": "Lists are unbounded and mix both member kinds around a marker byte that is also a legal value.", "anchors": ["pyzwave/commandclass/Association.py:Nodes"]}
{"id": "C15", "title": "DSK text and bytes convert without loss", "statement": "Formatting a 16 byte DSK as eight five digit groups and parsing that text returns the same 16 bytes, and two different DSKs never have the same text; wrong lengths of bytes are rejected.", "quantifier": "all 2^128 DSKs, every byte string of other length", "why_tests_cant": "Input space is 2^128.", "anchors": ["pyzwave/types.py:dsk_t"]}
{"id": "C16", "title": "Malformed DSK text is rejected", "statement": "Setting a DSK from text that is not eight groups of numbers below 65536 raises an error rather than producing a different DSK.", "quantifier": "every text string", "why_tests_cant": "All strings; tests use one valid string.", "anchors": ["pyzwave/types.py:dsk_t.__setstate__"]}
{"id": "C17", "title": "Measured values keep sign, precision, scale and size", "statement": "A decoded sensor or meter value equals the two's complement big endian mantissa divided by ten to the advertised precision, with the advertised scale and size, for every precision, scale, size and mantissa; a mantissa cut short raises end-of-file; the meter scale combines its third bit from the meter header.", "quantifier": "every precision (0..7), scale (0..3), size (0..7) and mantissa bytes", "why_tests_cant": "All mantissas of up to seven bytes.", "anchors": ["pyzwave/types.py:float_t.deserialize", "pyzwave/commandclass/Meter.py:Report"]}
{"id": "C18", "title": "Acknowledgement packet answers its request", "statement": "The acknowledgement built for a received Z/IP packet carries the same sequence number, exchanged endpoints, the same secure-origin flag, exactly one of the ack / nack flags and no command; it is always encodable, decodes back to the same fields, and when fed to the peer's connection resolves exactly the send with that sequence number.", "quantifier": "every received packet with complete header, both outcomes", "why_tests_cant": "Sequence numbers, endpoints and outstanding-send states are combinatorial.", "anchors": ["pyzwave/commandclass/Zip.py:ZipPacket.response", "pyzwave/adapter.py:Adapter.ackReceived"]}
{"id": "C19", "title": "Re-encoding a received frame gives the received frame", "statement": "Decoding any frame of an encodable class and composing the resulting message gives back the received bytes.", "quantifier": "every frame of every encodable class", "why_tests_cant": "All payload bit patterns, in particular reserved bits.", "anchors": ["pyzwave/message.py:Message.compose", "pyzwave/util.py:AttributesMixin.__setattr__"]}
{"id": "C20", "title": "Message comparison is total", "statement": "Comparing two messages with == never raises and is true exactly when they have the same wire form.", "quantifier": "every pair of messages", "why_tests_cant": "All pairs of messages of all classes, including ones that were decoded.", "anchors": ["pyzwave/message.py:Message.__eq__"]}
{"id": "C21", "title": "Configuration parameter frames", "statement": "A configuration set frame carries parameter number, size and the parameter value as exactly `size` big endian bytes, values that do not fit raise, and a configuration report decodes to the big endian value of its last `size` bytes.", "quantifier": "every parameter number, size and value", "why_tests_cant": "All sizes and values.", "anchors": ["pyzwave/commandclass/Configuration.py:Set.compose_value", "pyzwave/commandclass/Configuration.py:Report.parse_value"]}
{"id": "C22", "title": "Association group info reports", "statement": "An association group command list report decodes to the list of (command class, command) byte pairs of its declared even length in order, and a group info report decodes to as many group entries as declared, each with its own identifier and profile.", "quantifier": "every list length and contents", "why_tests_cant": "Unbounded lists.", "anchors": ["pyzwave/commandclass/AssociationGrpInfo.py:GroupCommandListReport", "pyzwave/commandclass/AssociationGrpInfo.py:GroupInfoReport"]}
{"id": "C23", "title": "Packet framing and sequence numbers", "statement": "The k-th command sent on a connection is transmitted as one Z/IP packet with sequence number k mod 256, ack request, command-included and secure-origin flags set, the given endpoints, and the exact encoding of the command; nothing else is ever written by send.", "quantifier": "every history of sends, every command and endpoint pair in range", "why_tests_cant": "Wrap-around and arbitrary histories.", "anchors": ["pyzwave/zipconnection.py:ZIPConnection.send"]}
{"id": "C24", "title": "A successful send was acknowledged", "statement": "If a send reports success then, after its packet was transmitted and before it returned, a packet with the ack flag and its own sequence number was received on that connection.", "quantifier": "every interleaving of sends, incoming datagrams, timer expirations and cancellations", "why_tests_cant": "All schedules and all datagram contents.", "anchors": ["pyzwave/adapter.py:Adapter.waitForAck", "pyzwave/adapter.py:Ack", "pyzwave/zipconnection.py:ZIPConnection.send"]}
{"id": "C25", "title": "A send is not abandoned early", "statement": "A send reports failure only after its timeout has elapsed since transmission; if the peer announced that the command is queued, only after the announced delay (or 120 seconds if the announcement is negative) plus 60 seconds has elapsed since the last such announcement took effect.", "quantifier": "every schedule, every announced delay, every number of announcements", "why_tests_cant": "Real-time behaviour over all schedules.", "anchors": ["pyzwave/adapter.py:Ack.queued", "pyzwave/adapter.py:Ack.wait"]}
{"id": "C26", "title": "Acknowledgements only affect their own send", "statement": "Receiving an ack or a queued announcement for sequence number n changes the state of at most the one send outstanding with sequence number n; every other outstanding operation, the transmit log and the waiting replies are untouched, and an ack for a number that is not outstanding has no effect.", "quantifier": "every reachable state, every ack packet", "why_tests_cant": "All states and datagrams.", "anchors": ["pyzwave/adapter.py:Adapter.ackReceived"]}
{"id": "C27", "title": "Outstanding sequence numbers are unique", "statement": "In every reachable state two different sends waiting for acknowledgement on the same connection have different sequence numbers, and a send whose number is already outstanding is refused with an error without disturbing the older one.", "quantifier": "every history including more than 256 outstanding sends", "why_tests_cant": "Needs long histories with wrap-around.", "anchors": ["pyzwave/adapter.py:Adapter.waitForAck"]}
{"id": "C28", "title": "Send never fails with an internal error", "statement": "For an encodable command on a connection with fewer than 256 outstanding sends, send returns true or false; it never raises.", "quantifier": "every schedule of acks and timeouts", "why_tests_cant": "The failure needs an ack to arrive in the window between timer expiry and the sender being resumed.", "anchors": ["pyzwave/adapter.py:Adapter.waitForAck"]}
{"id": "C29", "title": "A cancelled or failed send releases its sequence number", "statement": "After a send has finished in any way (success, timeout, cancellation) its sequence number is no longer outstanding, so later sends can reuse it.", "quantifier": "every schedule with cancellations", "why_tests_cant": "Only visible 256 sends later.", "anchors": ["pyzwave/adapter.py:Adapter.waitForAck"]}
{"id": "C30", "title": "Malformed datagrams are ignored", "statement": "A datagram that cannot be decoded is reported as not handled and leaves the connection unchanged.", "quantifier": "every state, every undecodable byte string", "why_tests_cant": "All byte strings in all states.", "anchors": ["pyzwave/zipconnection.py:ZIPConnection.onPacket"]}
{"id": "C31", "title": "The datagram handler never raises", "statement": "Handling any datagram in any state completes without an exception escaping into the event loop.", "quantifier": "every reachable state, every byte string", "why_tests_cant": "All byte strings in all states.", "anchors": ["pyzwave/zipconnection.py:ZIPConnection.onPacket", "pyzwave/adapter.py:Adapter.ackReceived", "pyzwave/adapter.py:Adapter.commandReceived"]}
{"id": "C32", "title": "Each received command goes to exactly one destination", "statement": "Every received Z/IP packet that carries a command is either handed to exactly the callers waiting for that command id or, if there are none, announced to the listeners exactly once; ack, nack and keep-alive packets are never announced.", "quantifier": "every reachable state without an expiring waiter, every datagram", "why_tests_cant": "All states and datagrams.", "anchors": ["pyzwave/zipconnection.py:ZIPConnection.onPacket", "pyzwave/adapter.py:Adapter.commandReceived", "pyzwave/util.py:MessageWaiter.messageReceived"]}
{"id": "C33", "title": "Keep-alive spacing", "statement": "After a connection is up there is always exactly one keep-alive timer, due 25 seconds after the most recent transmission made through send or keep-alive, and the keep-alive frame is the three bytes 23 03 80; so the link is never idle longer than 25 seconds.", "quantifier": "every history of sends and clock advances", "why_tests_cant": "Unbounded histories over time.", "anchors": ["pyzwave/zipconnection.py:ZIPConnection.resetKeepAlive", "pyzwave/zipconnection.py:ZIPConnection.keepAlive", "pyzwave/commandclass/Zip.py:ZipKeepAlive"]}
{"id": "C34", "title": "A reply is never missed by the adapter's request/response call", "statement": "If nobody else waits for the same reply type, the adapter's send-and-receive returns the first message of the expected type that is received after the call began, even if it is received before the acknowledgement of the request.", "quantifier": "every schedule of acks, replies and timers before the deadline", "why_tests_cant": "The early-reply schedule is a race.", "anchors": ["pyzwave/adapter.py:Adapter.sendAndReceive", "pyzwave/util.py:MessageWaiter"]}
{"id": "C35", "title": "A returned reply has the expected type and is fresh", "statement": "A message returned by send-and-receive or wait-for-message has the requested message id and was received after that call began.", "quantifier": "every schedule, any number of concurrent waiters", "why_tests_cant": "All schedules.", "anchors": ["pyzwave/util.py:MessageWaiter.waitForMessage", "pyzwave/adapter.py:Adapter.sendAndReceive"]}
{"id": "C36", "title": "Concurrent waiters do not disturb each other", "statement": "A caller that waits for a reply type receives the next message of that type arriving within its own timeout, whatever other callers waiting for the same type do (time out, finish, start).", "quantifier": "every interleaving of two or more waiters", "why_tests_cant": "Races between waiters.", "anchors": ["pyzwave/util.py:MessageWaiter.addWaitingSession", "pyzwave/util.py:MessageWaiter.waitForMessage"]}
{"id": "C37", "title": "Waiting sessions are cleaned up", "statement": "When every request/response call has ended no waiting session remains, so later unsolicited messages are announced to listeners instead of being swallowed.", "quantifier": "every schedule", "why_tests_cant": "All schedules and failure points.", "anchors": ["pyzwave/util.py:MessageWaiter", "pyzwave/adapter.py:Adapter.sendAndReceive", "pyzwave/node.py:Node.sendAndReceive"]}
{"id": "C38", "title": "A node's request/response call sees early replies", "statement": "A node's send-and-receive returns the first message of the expected type received from the node after the call began, even if it is received before the acknowledgement of the request.", "quantifier": "every schedule of acks and replies", "why_tests_cant": "Race between ack and reply.", "anchors": ["pyzwave/node.py:Node.sendAndReceive"]}
{"id": "C39", "title": "A node's failed request leaves no trace", "statement": "When a node's send-and-receive fails because the command could not be sent, a later report of the expected type is treated like any unsolicited message.", "quantifier": "every schedule", "why_tests_cant": "Needs the failure followed by an arbitrary later message.", "anchors": ["pyzwave/node.py:Node.sendAndReceive", "pyzwave/node.py:Node.handleMessage"]}
{"id": "C40", "title": "Network management requests never run out of sequence numbers", "statement": "Every network management request (node list, node info, inclusion, ...) can be encoded and transmitted, however many requests were made before.", "quantifier": "every number of previous requests", "why_tests_cant": "Fails only after 255 requests in one process.", "anchors": ["pyzwave/zipgateway.py:ZIPGateway._nmSeq"]}
{"id": "C41", "title": "One connection per node", "statement": "However many commands are sent to a node, at most one connection to it is opened, commands to a node always go over the connection opened for that node, and messages arriving on it are attributed to that node.", "quantifier": "every interleaving of sends to any nodes", "why_tests_cant": "Two sends racing while the connection is being opened.", "anchors": ["pyzwave/zipgateway.py:ZIPGateway.connectToNode", "pyzwave/zipgateway.py:ZIPGateway.onMessageReceived"]}
{"id": "C42", "title": "A node's address is the one advertised for that node", "statement": "The address lookup for node n returns the address from an advertisement for node n.", "quantifier": "every interleaving of lookups and advertisements", "why_tests_cant": "Concurrent lookups and late answers.", "anchors": ["pyzwave/zipgateway.py:ZIPGateway.ipOfNode"]}
{"id": "C43", "title": "Node table follows node list reports", "statement": "After a node list report has been handled and all addresses resolved, the known nodes are exactly the reported ones, addresses of nodes that were already known are kept, new nodes have their resolved address, and listeners are told exactly once.", "quantifier": "every previous table, every report, every address assignment", "why_tests_cant": "All tables and reports.", "anchors": ["pyzwave/zipgateway.py:ZIPGateway.__handleNodeListReport__"]}
{"id": "C44", "title": "An unreachable node does not stop node list updates", "statement": "If the address of one newly reported node cannot be resolved the other nodes are still added and the listeners are told about the new list.", "quantifier": "every report, every set of unreachable nodes", "why_tests_cant": "Failure injection at every position.", "anchors": ["pyzwave/zipgateway.py:ZIPGateway.__handleNodeListReport__"]}
{"id": "C45", "title": "Unsolicited packets are attributed by address and acknowledged", "statement": "An unsolicited packet from an address that belongs to a known node is announced exactly once for that node with its endpoints and command, and answered with exactly one acknowledgement if and only if it requested one; a packet from an unknown address is not announced.", "quantifier": "every node table with distinct addresses, every sender address, every packet", "why_tests_cant": "All tables and packets.", "anchors": ["pyzwave/zipgateway.py:ZIPGateway.onUnsolicitedMessage"]}
{"id": "C46", "title": "Gateway mode change", "statement": "Setting the gateway mode reports success exactly when the mode read back equals the requested mode, and sends the set command only when the current mode differs.", "quantifier": "every current mode, requested mode and gateway answer", "why_tests_cant": "All combinations with failing answers.", "anchors": ["pyzwave/zipgateway.py:ZIPGateway.setGatewayMode"]}
{"id": "C47", "title": "Command class lists are parsed by section", "statement": "A node supports command class c exactly when c is listed before the control mark of some section; its command class is marked secure exactly when the last listing was after the S0 mark; no mark byte is registered as a command class except as documented.", "quantifier": "every command class byte list", "why_tests_cant": "Arbitrary lists with arbitrary positions of marks.", "anchors": ["pyzwave/node.py:Node.__init__", "pyzwave/node.py:Node.supports"]}
{"id": "C48", "title": "Node construction accepts every node information frame", "statement": "Constructing a node from any command class list succeeds.", "quantifier": "every byte list", "why_tests_cant": "Depends on the last byte of the list.", "anchors": ["pyzwave/node.py:Node.__init__"]}
{"id": "C49", "title": "Message routing inside a node", "statement": "A message for a node is first given to waiting callers, then to its command class, and only if neither handled it to the message listeners; the node reports it handled exactly when one of them did.", "quantifier": "every message, every combination of waiters, command classes and listeners", "why_tests_cant": "All combinations.", "anchors": ["pyzwave/node.py:Node.handleMessage", "pyzwave/commandclass/CommandClass.py:CommandClass.handleMessage"]}
{"id": "C50", "title": "Supervised commands get exactly one matching report", "statement": "For every supervision request the node processes its inner command exactly once and sends exactly one report with the same session id, no more-updates flag, zero duration, and status success if and only if the inner command was handled; unsupervised messages cause no report.", "quantifier": "every message and handler outcome", "why_tests_cant": "All session ids, inner commands and handler outcomes.", "anchors": ["pyzwave/node.py:supervision", "pyzwave/commandclass/Supervision.py"]}
{"id": "C51", "title": "Storage lock coalesces updates", "statement": "While a node's storage lock is held no update notification is sent; when it is released exactly one notification is sent if and only if something was updated while it was held; outside the lock every update is notified immediately.", "quantifier": "every sequence of lock, update, unlock without overlap", "why_tests_cant": "All sequences.", "anchors": ["pyzwave/node.py:Node.storageLock", "pyzwave/node.py:Node.commandClassUpdated"]}
{"id": "C52", "title": "Overlapping storage locks lose no update", "statement": "With overlapping or nested storage locks every update is eventually followed by a notification once all locks are released, and no notification is sent while a lock is held.", "quantifier": "every interleaving of lock holders", "why_tests_cant": "Overlaps happen only with concurrent interviews.", "anchors": ["pyzwave/node.py:Node.storageLock"]}
{"id": "C53", "title": "Interview progress", "statement": "A command class is marked interviewed exactly when its version is known and its last interview ran to the end without timing out or reporting failure; while the version is unknown its interview does not start.", "quantifier": "every sequence of interviews with every outcome", "why_tests_cant": "All histories of outcomes.", "anchors": ["pyzwave/commandclass/CommandClass.py:interviewDecorator", "pyzwave/commandclass/CommandClass.py:CommandClass.requestVersion"]}
{"id": "C54", "title": "Sensor report filter", "statement": "A sensor report reaches listeners only if its sensor type is supported and its scale bit is advertised for that type, and every such report reaches them (version 5 and up).", "quantifier": "every supported table and report", "why_tests_cant": "All tables and reports.", "anchors": ["pyzwave/commandclass/SensorMultilevel.py:SensorMultilevel.__report__"]}
{"id": "C55", "title": "Lifeline set-up is idempotent and minimal", "statement": "Setting up the lifeline sends an association set for the controller only if the controller is not already a member of group 1 (as node 1 or node 1 endpoint 0), and after it succeeds and the group is read back, running it again sends nothing.", "quantifier": "every association table", "why_tests_cant": "All member lists.", "anchors": ["pyzwave/commandclass/Association.py:Association.setupLifeLine", "pyzwave/commandclass/Association.py:Nodes.contains"]}
{"id": "C56", "title": "Attribute assignment", "statement": "Assigning an attribute stores the value converted to its declared type; the attributeUpdated hook is called with the old and the new value exactly when the stored value changed; other attributes are untouched.", "quantifier": "every object, attribute and value", "why_tests_cant": "All values and histories of assignments.", "anchors": ["pyzwave/util.py:AttributesMixin.__setattr__", "pyzwave/util.py:AttributesMixin.attributeUpdated"]}
{"id": "C57", "title": "A failing listener does not affect the others", "statement": "When an event is announced every registered listener that handles it is called exactly once, even if some of them raise: plain listeners at once in registration order, coroutine listeners afterwards in registration order.", "quantifier": "every list of listeners and outcomes", "why_tests_cant": "All outcome combinations.", "anchors": ["pyzwave/util.py:Listenable.speak"]}
{"id": "C58", "title": "Mailbox stores each message once", "statement": "If pushes are handled one at a time, pushing the same message to the same queue several times before it is delivered stores it once, and exactly one waiting notice is sent for each stored message.", "quantifier": "every sequence of pushes and wake-ups", "why_tests_cant": "All histories.", "anchors": ["pyzwave/mailbox.py:MailboxService.__pushQueue__"]}
{"id": "C59", "title": "Mailbox de-duplication under concurrency", "statement": "Concurrent pushes of the same message to the same queue store it once.", "quantifier": "every interleaving of push handlers", "why_tests_cant": "Race between check and append.", "anchors": ["pyzwave/mailbox.py:MailboxService.__pushQueue__"]}
{"id": "C60", "title": "Mailbox delivery order", "statement": "When a node wakes up its queued messages are delivered in the order in which they were pushed.", "quantifier": "every sequence of pushes", "why_tests_cant": "Needs two or more queued messages.", "anchors": ["pyzwave/mailbox.py:MailboxService.__popQueue__"]}
{"id": "C61", "title": "Mailbox delivers a stored message at most once and only after it was pushed", "statement": "Every delivered message was pushed before to the same queue handle and each stored message is delivered at most once.", "quantifier": "every interleaving of push, wake-up and ack handlers", "why_tests_cant": "All interleavings.", "anchors": ["pyzwave/mailbox.py:MailboxService"]}
{"id": "C62", "title": "The last-message flag is correct", "statement": "A delivery carries the last flag exactly when no other message is queued for that handle at that moment, and a wake-up of an empty queue is answered by an empty last delivery.", "quantifier": "every queue content", "why_tests_cant": "All queue contents.", "anchors": ["pyzwave/mailbox.py:MailboxService.__popQueue__"]}
{"id": "C63", "title": "Undelivered messages stay queued", "statement": "If the delivery of a queued message is not acknowledged, the message stays in the queue and is delivered again on a later wake-up.", "quantifier": "every schedule of delivery failures", "why_tests_cant": "Failure injection.", "anchors": ["pyzwave/mailbox.py:MailboxService.__popQueue__"]}
{"id": "C64", "title": "Mailbox heartbeats", "statement": "For each stored message a heartbeat is sent every 60 seconds until it is delivered, the tenth, twentieth, ... heartbeat being a ping and the others waiting notices.", "quantifier": "every number of heartbeats", "why_tests_cant": "Unbounded time.", "anchors": ["pyzwave/mailbox.py:QueueItem._runner"]}
{"id": "C65", "title": "Stored attributes survive a restart", "statement": "Saving a node and loading it again restores every command class version and every stored attribute of the association, configuration, manufacturer, version, sensor and Z-Wave Plus command classes.", "quantifier": "every node state", "why_tests_cant": "All states through text conversion.", "anchors": ["pyzwave/persistantstorage.py:YamlStorage", "pyzwave/commandclass/CommandClass.py:CommandClass.__setstate__", "pyzwave/util.py:AttributesMixin.__getstate__"]}
{"id": "C66", "title": "Interview state survives a restart", "statement": "Saving a node and loading it again restores the interviewed state of each command class.", "quantifier": "every node state", "why_tests_cant": "Depends on the textual form of booleans.", "anchors": ["pyzwave/commandclass/CommandClass.py:CommandClass.__setstate__", "pyzwave/persistantstorage.py:YamlStorage.nodeAdded"]}
{"id": "C67", "title": "A crash while saving loses at most the newest save", "statement": "If the process stops at any point while a node is being saved, loading it afterwards gives the old or the new state.", "quantifier": "every crash point, every old and new state", "why_tests_cant": "All crash points.", "anchors": ["pyzwave/persistantstorage.py:YamlStorage.nodeUpdated"]}
{"id": "C68", "title": "Node files do not collide", "statement": "Two different (node, endpoint) pairs are stored in different files, and saving one node changes no other node's file.", "quantifier": "all pairs of node ids", "why_tests_cant": "All pairs.", "anchors": ["pyzwave/persistantstorage.py:YamlStorage.pathForNode", "pyzwave/node.py:Node.nodeId"]}
{"id": "C69", "title": "The node table follows the network", "statement": "After a node list update has been handled the application knows exactly the listed nodes other than the controller, with the end points they reported; nodes that were already known keep their state; listeners are told once about each removed node and once about all added nodes.", "quantifier": "every previous table, every node list, every reported end point count", "why_tests_cant": "All tables and lists.", "anchors": ["pyzwave/application.py:Application.nodeListUpdated", "pyzwave/application.py:Application.loadNode"]}
{"id": "C70", "title": "Concurrent node list updates", "statement": "Handling two node list updates concurrently completes without an error and ends in the same table as handling them one after the other.", "quantifier": "every interleaving of two updates", "why_tests_cant": "Race.", "anchors": ["pyzwave/application.py:Application.nodeListUpdated"]}
{"id": "C71", "title": "Messages are routed to the right node object", "statement": "A message announced for node n and endpoint e is handled by the node object of (n, e) exactly when it exists, and otherwise only offered to listeners or ignored.", "quantifier": "every table and message", "why_tests_cant": "All tables.", "anchors": ["pyzwave/application.py:Application.messageReceived"]}
{"id": "C72", "title": "Cached configuration values", "statement": "A cached configuration read returns the value of the most recent report for that parameter without asking the node, and asks the node exactly when no report for it was received.", "quantifier": "every sequence of complete configuration reports and every parameter number", "why_tests_cant": "All histories of reports.", "anchors": ["pyzwave/commandclass/Configuration.py:Configuration.__report__", "pyzwave/commandclass/Configuration.py:Configuration.get"]}
{"id": "C73", "title": "Sensor interview records what is advertised", "statement": "A sensor interview (version 5 and up) asks the node for its sensors and then for the scales of each advertised sensor exactly once, and afterwards the table holds the advertised scales of exactly these sensors in addition to earlier entries.", "quantifier": "every set of sensors, every scale mask, every earlier table", "why_tests_cant": "All advertised sets.", "anchors": ["pyzwave/commandclass/SensorMultilevel.py:SensorMultilevel.interview"]}
{"id": "C74", "title": "Association interview visits every group", "statement": "The association interview asks for every group from 1 to the reported number exactly once in ascending order; a group that does not answer in time is skipped without affecting the others, and every answered group holds the reported members.", "quantifier": "every number of groups and every combination of answers and time outs", "why_tests_cant": "All combinations of time outs.", "anchors": ["pyzwave/commandclass/Association.py:Association.interview", "pyzwave/commandclass/Association.py:Groupings.setNumGroups", "pyzwave/commandclass/Association.py:Association.interviewGrouping"]}
{"id": "C75", "title": "Only duplicates are discarded by the mailbox", "statement": "A pushed message is discarded only if an equal message is queued for the same handle.", "quantifier": "all pairs of messages, every queue content", "why_tests_cant": "Needs a pair of different messages with equal checksums; absence for classes of pairs needs all pairs.", "anchors": ["pyzwave/mailbox.py:QueueItem.checksum", "pyzwave/mailbox.py:MailboxService.__pushQueue__"]}
{"id": "C76", "title": "Association group information survives a restart", "statement": "Saving a node and loading it again restores the names, profiles and command lists of its association groups.", "quantifier": "every node state", "why_tests_cant": "All states through text conversion; the existing tests only look at names.", "anchors": ["pyzwave/commandclass/AssociationGrpInfo.py:Groupings.__setstate__", "pyzwave/util.py:AttributesMixin.__setstate__", "pyzwave/persistantstorage.py:YamlStorage"]}
{"id": "C77", "title": "Inclusion and exclusion reports reach the listeners", "statement": "Listeners get every inclusion and exclusion status report; they are told that node 0 left (a device of another network was excluded) exactly when an exclusion is done and names node 0; every other unhandled command is offered to them once, and counts as handled exactly when one of them says so or it is a status report.", "quantifier": "every message, every sequence of listener answers and exceptions, whatever runs meanwhile", "why_tests_cant": "All messages and interleavings.", "anchors": ["pyzwave/application.py:Application.onMessageReceived"]}
{"id": "C78", "title": "Start-up loads and announces the network", "statement": "Starting the application completes whatever node list updates arrive meanwhile, knows every listed node except the controller, with its end points and as reported, and announces all of them, first together and then one by one.", "quantifier": "every node list, every sequence of adapter answers and interleaving", "why_tests_cant": "All networks and schedules.", "anchors": ["pyzwave/application.py:Application.startup", "pyzwave/application.py:Application.loadNode"]}
{"id": "C79", "title": "Known nodes were announced", "statement": "When no update or start-up is in progress, every node object in the table has been announced to the listeners.", "quantifier": "every interleaving and every failure of the adapter", "why_tests_cant": "Failures at every point of every interleaving.", "anchors": ["pyzwave/application.py:Application.nodeListUpdated", "pyzwave/application.py:Application.startup"]}
{"id": "C80", "title": "Inclusion and exclusion commands report delivery", "statement": "addNode, addNodeStop, addNodeDSKSet, addNodeKeysSet, removeNode and removeNodeStop return True only if the gateway acknowledged the datagram that carried the command, and False if it did not.", "quantifier": "every command with parameters in range, every interleaving with other calls, datagrams and time-outs", "why_tests_cant": "Depends on when acknowledgements arrive in every schedule.", "anchors": ["pyzwave/zipgateway.py:ZIPGateway.addNode", "pyzwave/zipgateway.py:ZIPGateway.removeNode", "pyzwave/zipconnection.py:ZIPConnection.send"]}
{"id": "C81", "title": "Queries return the answer to their own request", "statement": "getNodeInfo, getMultiChannelEndPoints, getMultiChannelCapability, getFailedNodeList and removeFailedNode return (a field of) the report with which the gateway answered that very request, or the default when it did not answer in time.", "quantifier": "every query with parameters in range, every interleaving with other calls, datagrams and time-outs", "why_tests_cant": "Late and concurrent answers in every schedule.", "anchors": ["pyzwave/zipgateway.py:ZIPGateway.getNodeInfo", "pyzwave/zipgateway.py:ZIPGateway.getMultiChannelEndPoints", "pyzwave/adapter.py:Adapter.sendAndReceive"]}
{"id": "C82", "title": "Association group information follows the node's reports", "statement": "An AssociationGrpInfo object knows a group once an info report has described it, with the profile described; the group's name and command list are the ones last reported for it. A report about an unknown group changes nothing and raises nothing, and repeating an info report loses nothing.", "quantifier": "every sequence of reports, every interleaving of their handlers with the requests these send, whatever the sends return or raise", "why_tests_cant": "Handlers of several reports overlap in arbitrary ways while they wait for their requests.", "anchors": ["pyzwave/commandclass/AssociationGrpInfo.py:AssociationGrpInfo.__groupInfoReport__", "pyzwave/commandclass/AssociationGrpInfo.py:AssociationGrpInfo.__groupNameReport__", "pyzwave/commandclass/AssociationGrpInfo.py:AssociationGrpInfo.__groupCommandListReport__"]}
{"id": "C83", "title": "Every advertised association group is asked for its details", "statement": "For each group of an info report the name and the command list are requested, once each and in the order of the report, and every group of the report becomes known.", "quantifier": "every info report, every interleaving, every outcome of the sends", "why_tests_cant": "All lengths of reports and all failure points.", "anchors": ["pyzwave/commandclass/AssociationGrpInfo.py:AssociationGrpInfo.__groupInfoReport__"]}
{"id": "C84", "title": "Reported group information is saved", "statement": "When the interview of AssociationGrpInfo is over and all reports have been handled, the group information is in the node's settings file, so that it is known after a restart.", "quantifier": "every sequence of reports and saves", "why_tests_cant": "Depends on the order of signals, reports and saves.", "anchors": ["pyzwave/commandclass/AssociationGrpInfo.py:AssociationGrpInfo.interview", "pyzwave/commandclass/CommandClass.py:interviewDecorator", "pyzwave/persistantstorage.py:YamlStorage.nodeUpdated"]}
{"id": "C85", "title": "The version recorded for a class is the one the node reported for that class", "statement": "Whenever the version of a command class changes in the course of an interview or of requestVersion, the new value is the version the node reported for this very class.", "quantifier": "every interleaving of interviews, requests, reports, time outs and cancellations", "why_tests_cant": "A late report has to meet a later question.", "anchors": ["pyzwave/commandclass/CommandClass.py:CommandClass.requestVersion", "pyzwave/node.py:Node.sendAndReceive"]}
{"id": "C86", "title": "Node.interview interviews every supported class", "statement": "Node.interview starts the interview of every supported command class, in order; a class that does not answer, or whose interview fails, does not keep the others from being interviewed.", "quantifier": "every list of classes, every interleaving, every outcome of the requests", "why_tests_cant": "All failure points of all classes.", "anchors": ["pyzwave/node.py:Node.interview", "pyzwave/commandclass/CommandClass.py:interviewDecorator"]}
{"id": "C87", "title": "Version, Z-Wave Plus and manufacturer data come from the node's reports", "statement": "The attributes of Version, ZwavePlusInfo and ManufacturerSpecific are those of one report: the last one the node sent in answer to the class's own question.", "quantifier": "every sequence of interviews and every report, whole or cut short", "why_tests_cant": "All cut points of all reports after all histories.", "anchors": ["pyzwave/commandclass/Version.py:Version.interview", "pyzwave/commandclass/ZwavePlusInfo.py:ZwavePlusInfo.interview", "pyzwave/commandclass/ManufacturerSpecific.py:ManufacturerSpecific.interview"]}
{"id": "C88", "title": "Every change an interview makes is signalled", "statement": "Whenever an interview or requestVersion changes the version, the flag or the attributes of a class, commandClassUpdated is signalled in the same turn of the event loop, so that the change is saved.", "quantifier": "every interleaving of interviews, requests, reports and time outs", "why_tests_cant": "All paths through the interviews with all failures.", "anchors": ["pyzwave/commandclass/CommandClass.py:interviewDecorator", "pyzwave/commandclass/CommandClass.py:CommandClass.requestVersion"]}
{"id": "C89", "title": "A class that counts as interviewed has its data", "statement": "If Version, ZwavePlusInfo or ManufacturerSpecific counts as interviewed, each of its attributes has a value that is a number.", "quantifier": "every interleaving of interviews, reports, time outs and cancellations", "why_tests_cant": "All histories of repeated, failing and overlapping interviews.", "anchors": ["pyzwave/commandclass/CommandClass.py:interviewDecorator", "pyzwave/commandclass/Version.py:Version.interview", "pyzwave/commandclass/ZwavePlusInfo.py:ZwavePlusInfo.interview", "pyzwave/commandclass/ManufacturerSpecific.py:ManufacturerSpecific.interview"]}
{"id": "C90", "title": "Each command has its own fixed wire layout", "statement": "For each of 89 command classes (all that have only fixed size fields, plus those carrying association members or an encapsulated command) the bytes are those of an explicit protocol table: command class number, command number, then the named fields with the listed widths, most significant bit first, reserved bits sent as zero. Constructing such a command with keyword arguments and composing it gives exactly these bytes; receiving these bytes (with any reserved bits) gives a message of that class whose attributes are the contents of the fields.", "quantifier": "for every row of the table, all field contents in range, all reserved bits", "why_tests_cant": "The tests check one or two literal frames for some of the classes; a swapped or misaligned field shows only for other contents.", "anchors": ["pyzwave/commandclass/NetworkManagementInclusion.py", "pyzwave/commandclass/NetworkManagementProxy.py", "pyzwave/commandclass/Zip.py", "pyzwave/commandclass/Configuration.py", "pyzwave/message.py:compose", "pyzwave/message.py:deserialize"]}
{"id": "C91", "title": "remove() tells whether the failed node is gone", "statement": "Node.remove() returns True exactly if the gateway reported, in answer to this request, that the node was removed from the network; it returns False if the gateway reported anything else or did not report within ten seconds.", "quantifier": "for every node id, every set of calls in progress on the gateway, every sequence of datagrams and every interleaving of tasks", "why_tests_cant": "tests answer the one request with the one right report; whether a report about another node can be taken for the answer depends on the interleaving of requests, time outs and late reports", "anchors": ["pyzwave/node.py:221-231", "pyzwave/zipgateway.py", "pyzwave/commandclass/NetworkManagementInclusion.py:56-73"]}
{"id": "C92", "title": "Datagrams reach the callback", "statement": "For a connection object that is used either to connect or to listen: every datagram that arrives on its socket is passed to the callback registered at that moment, exactly once, unchanged and in order of arrival, together with the sender's address exactly if the socket listens; datagrams that arrive while no callback is registered are dropped.", "quantifier": "for every sequence of connect, listen, onMessage, send, sendTo, stop, arrivals, losses and task resumptions", "why_tests_cant": "tests call the protocol object once with one datagram; order, duplication and the moment a callback is exchanged need all sequences", "anchors": ["pyzwave/connection.py:9-33", "pyzwave/connection.py:48-69", "pyzwave/connection.py:89-104"]}
{"id": "C93", "title": "send() tells whether the bytes went out", "statement": "Connection.send() returns True exactly if the bytes were written to the open socket of the connection, and nothing is written except by send() and sendTo().", "quantifier": "for every sequence of events of the connection object", "why_tests_cant": "whether the socket is still open when send is called depends on stop, loss and pending connects in any order", "anchors": ["pyzwave/connection.py:77-87"]}
{"id": "C94", "title": "stop() ends the connection, and nothing else does", "statement": "After stop() no datagram reaches the callback and nothing is written any more; without stop() a socket stays open until the event loop reports its own loss.", "quantifier": "for every sequence of events of the connection object", "why_tests_cant": "needs all interleavings of reconnecting, stopping, and the background task that waits for the loss of the socket", "anchors": ["pyzwave/connection.py:48-60", "pyzwave/connection.py:71-75", "pyzwave/connection.py:93-96"]}
{"id": "C95", "title": "A configuration value that was set is read back", "statement": "After Configuration.set(number, size, value) reported success, get(number) returns that value until it is changed again; a value that does not fit the size raises an error and changes nothing.", "quantifier": "for every device memory, every sequence of set and get calls with any parameter numbers, sizes 1, 2, 4, and any integer values", "why_tests_cant": "tests set or get a single value; the relation between writes, reads and the cache needs all sequences and all values", "anchors": ["pyzwave/commandclass/Configuration.py:71-104", "pyzwave/commandclass/Configuration.py:125-145"]}
{"id": "C96", "title": "Node.send() reports the fate of the command it was given", "statement": "When Node.send(cmd) returns True, the command was transmitted exactly once, framed for this node's end point, on a connection made for this node, and an acknowledgement bearing the number of that packet arrived on the same connection between the transmission and the return. When it returns False, the command was transmitted in the same way and the time out (or the delay the peer announced) has passed. It returns nothing else; otherwise it raises.", "quantifier": "for every execution of the gateway: any number of concurrent sends to any nodes, look-ups, connection attempts, datagrams, time outs and cancellations in any order", "why_tests_cant": "tests replace sendToNode by a mock; that the right bytes reach the right connection under concurrency depends on the address look-up, the connection table, the packet numbering and the acknowledgement queue together", "anchors": ["pyzwave/node.py:237-241", "pyzwave/zipgateway.py:95-106", "pyzwave/zipgateway.py:295-297", "pyzwave/zipconnection.py:send"]}
{"id": "C97", "title": "An interview of AssociationGrpInfo that succeeded has asked the node", "statement": "interview() of AssociationGrpInfo sends one request for the list of all groups. It returns True, and the class is marked as interviewed and saved, exactly if the request was delivered; after a timeout it returns False, and the class is not marked.", "quantifier": "every sequence of interviews and reports, every interleaving of their tasks, every outcome of the sends", "why_tests_cant": "Interviews overlap with each other and with the handlers of reports, and every send may return, refuse or raise.", "anchors": ["pyzwave/commandclass/AssociationGrpInfo.py:AssociationGrpInfo.interview", "pyzwave/commandclass/CommandClass.py:interviewDecorator"]}
{"id": "C98", "title": "Packets read by the DTLS thread reach the callback", "statement": "Every packet the reading thread of a DTLS connection reads is passed, once and in order, to the callback that was registered when it was read; the sender's address is passed for a server only. Nothing else is passed to a callback and no exception is raised on the event loop.", "quantifier": "every interleaving of the two threads, every sequence of packets, errors and changes of the callback", "why_tests_cant": "The two threads interleave at every access to the shared attributes.", "anchors": ["pyzwave/dtlsconnection.py:DTLSConnection.run", "pyzwave/dtlsconnection.py:DTLSConnection.onMessage"]}
{"id": "C99", "title": "stop() ends a DTLS connection, and nothing but stop() or an error does", "statement": "After stop() no packet is delivered and nothing is written; without stop() the reading thread ends only if the socket could not be made or reports an error.", "quantifier": "every interleaving of the two threads", "why_tests_cant": "stop() races with the start of the thread and with a read that is waiting.", "anchors": ["pyzwave/dtlsconnection.py:DTLSConnection.stop", "pyzwave/dtlsconnection.py:DTLSConnection.run"]}
{"id": "C100", "title": "A DTLS connection is usable exactly when connect() has returned", "statement": "connect() returns only after the handshake, and does return once the handshake is done and the threads go on; it raises nothing but TimeoutError, after ten seconds. Bytes given to send() are written to the socket or send() raises; nothing is written before the handshake.", "quantifier": "every interleaving of the two threads, every sequence of calls", "why_tests_cant": "All orders of handshake, time out, calls and loop callbacks.", "anchors": ["pyzwave/dtlsconnection.py:DTLSConnection.connect", "pyzwave/dtlsconnection.py:DTLSConnection.listen", "pyzwave/dtlsconnection.py:DTLSConnection.send"]}
{"id": "C101", "title": "interview() tells whether the class was interviewed", "statement": "interview() of a class returns False or raises if the class was not interviewed, and then the class does not count as interviewed; if it returns anything else the class counts as interviewed.", "quantifier": "every interleaving of interviews, reports, time outs and cancellations, every outcome of the requests", "why_tests_cant": "Interviews overlap, and each of their requests may be answered, cut short, refused, time out or raise.", "anchors": ["pyzwave/commandclass/CommandClass.py:interviewDecorator", "pyzwave/commandclass/CommandClass.py:CommandClass.requestVersion"]}
{"id": "C102", "title": "Loading a node asks for it and its end points and returns exactly those", "statement": "loadNode of a node asks the adapter for its information, then for the number of end points if it has the Multi Channel class, then for each end point from 1 on; it makes one object of each answer, stores them under their node id, and returns them in this order. It raises exactly if one of the adapter's calls raised or a class list is cut short. Nothing is announced or removed, and the controller itself is not loaded.", "quantifier": "every interleaving with updates, start-up, other loads and messages; all answers", "why_tests_cant": "Any number of end points, any answers, any other task running in between.", "anchors": ["pyzwave/application.py:Application.loadNode", "pyzwave/application.py:Application.loadEndPointNode"]}
{"id": "C103", "title": "No call hangs", "statement": "Every call of send, sendAndReceive or waitForMessage ends. As long as it runs, once the time it may take has passed its timer fires or it is resumed; it takes at most seven steps and one more for every datagram that arrives. With an event loop that does not fall behind it ends within its time outs (for sendAndReceive 3 seconds and the time out for the reply) and the extensions the peer asked for.", "quantifier": "every interleaving of calls, datagrams, timers, cancellations and time; every reachable state", "why_tests_cant": "A hang may need any combination of crossing acknowledgements, shared waits and cancellations; that it never happens is a statement about all of them.", "anchors": ["pyzwave/zipconnection.py:ZIPConnection.send", "pyzwave/adapter.py:Ack.wait", "pyzwave/adapter.py:Adapter.sendAndReceive", "pyzwave/adapter.py:Adapter.waitForAck", "pyzwave/util.py:MessageWaiter.waitForMessage"]}
{"id": "C104", "title": "Loading settings sets what the file says and nothing else", "statement": "The settings of an end point are kept in <path>/nodes/<node>:<end point>.yml. Loading them changes only command classes the file names. A class it names gets the version and interviewed state the file gives (0 and not interviewed if it gives none) and the declared attributes the file gives; its other attributes stay. Without a file nothing changes.", "quantifier": "every settings file with readable entries, also ones written by hand or by another version; every node state", "why_tests_cant": "All files and node states.", "anchors": ["pyzwave/persistantstorage.py:YamlStorage.nodeAdded", "pyzwave/persistantstorage.py:YamlStorage.pathForNode", "pyzwave/commandclass/CommandClass.py:CommandClass.__setstate__", "pyzwave/util.py:AttributesMixin.__setstate__"]}
{"id": "C105", "title": "Unreadable settings of one class do not cost the others theirs", "statement": "If the entry of one command class in a settings file cannot be read, the settings of the other classes of the node are still loaded.", "quantifier": "every settings file, every node state", "why_tests_cant": "All files; depends on the order of the node's classes.", "anchors": ["pyzwave/persistantstorage.py:YamlStorage.nodeAdded", "pyzwave/commandclass/CommandClass.py:CommandClass.__setstate__"]}
{"id": "C106", "title": "No request of a node hangs", "statement": "A request of a node that has not ended either still waits for its command to be sent and goes on however that ends, or waits for the answer. While waiting it depends on nobody: once its time out has passed its timer fires or it is resumed, it takes at most three steps in all, and with an event loop that does not fall behind it ends within its time out, counted from the acknowledgement.", "quantifier": "every schedule of concurrent requests, messages, timers and cancellations of a node; every time out", "why_tests_cant": "All interleavings of requests that share the waiting sessions of a node.", "anchors": ["pyzwave/node.py:Node.sendAndReceive", "pyzwave/node.py:Node.send", "pyzwave/util.py:MessageWaiter.waitForMessage", "pyzwave/util.py:MessageWaiter.addWaitingSession"]}
{"id": "C107", "title": "No call of the gateway hangs", "statement": "Every call of the gateway ends: connect, getNodeList, ipOfNode, connectToNode, sendToNode, setGatewayMode, the network management requests and the handling of a node list report. As long as it runs it waits for a socket, and goes on whether that is opened or not, or for one call it made itself on one connection, whose timer fires or which is resumed once its time has passed. It waits only finitely often and needs no message of any node and no other task. With an event loop that does not fall behind and sockets opened at once, it ends within the sum of what its calls on connections may take.", "quantifier": "every interleaving of gateway calls, datagrams on every connection, timers, cancellations and time; every reachable state; any number of nodes in a node list; sockets opened or refused", "why_tests_cant": "A hang may need any combination of concurrent gateway calls sharing the waits of one connection; that it never happens is a statement about all of them.", "anchors": ["pyzwave/zipgateway.py:ZIPGateway.connect", "pyzwave/zipgateway.py:ZIPGateway.getNodeList", "pyzwave/zipgateway.py:ZIPGateway.ipOfNode", "pyzwave/zipgateway.py:ZIPGateway.connectToNode", "pyzwave/zipgateway.py:ZIPGateway.sendToNode", "pyzwave/zipgateway.py:ZIPGateway.__handleNodeListReport__", "pyzwave/zipgateway.py:ZIPGateway.setupUnsolicitedConnection"]}
{"id": "C108", "title": "The answer to a node's request was sent by that node", "statement": "What Node.sendAndReceive returns is a message of the kind asked for which that end point of that node sent: it came in a Z/IP packet with the end point as its source, from that node's address or on a connection to it (a node advertisement on such a connection counts as sent by end point 0). Before it was received, the command had been given to the gateway for that node and end point, had been written to a connection to that node, and had been acknowledged there. More generally, everything a node object is given was sent by that end point of that node.", "quantifier": "every interleaving of the gateway's calls, datagrams on every connection and on the unsolicited port, timers and time, the application's table being updated, requests of all node objects, and messages being handled late and in any order", "why_tests_cant": "A message may reach the wrong object through the address table, the table of connections, the end point, the application's table or the waiters of the object; that none of these goes wrong under any interleaving needs an invariant across all of them.", "anchors": ["pyzwave/node.py:Node.sendAndReceive", "pyzwave/node.py:Node.send", "pyzwave/node.py:Node.handleMessage", "pyzwave/node.py:supervision", "pyzwave/application.py:Application.messageReceived", "pyzwave/zipgateway.py:ZIPGateway.onMessageReceived", "pyzwave/zipgateway.py:ZIPGateway.onUnsolicitedMessage", "pyzwave/util.py:Listenable.speak"]}
{"id": "C109", "title": "A report reaches the request that waits for it", "statement": "A message of the kind a request waits for, which the request's node sends from the request's end point after the sending succeeded and which arrives (on a connection made for the node or, from the node's listed address, at the unsolicited port) before the request's time out, is what the request returns, if no other request of this object waits for that kind and no such message came before: the gateway announces it once, the application's table is asked once for each announcement, the object for the end point is given it, and it wakes the request.", "quantifier": "every interleaving of the gateway's calls, datagrams on every connection and on the unsolicited port, timers and time, the application's table being updated, requests of all node objects, and messages being handled late and in any order", "why_tests_cant": "A message passes the connection's waiters, the gateway's tables, the application's table and the object's waiters; that none of them drops, doubles or misdirects it under any interleaving, and that the request cannot time out first, needs a statement over all runs.", "anchors": ["pyzwave/node.py:Node.sendAndReceive", "pyzwave/node.py:Node.send", "pyzwave/node.py:Node.handleMessage", "pyzwave/node.py:supervision", "pyzwave/application.py:Application.messageReceived", "pyzwave/zipgateway.py:ZIPGateway.onMessageReceived", "pyzwave/zipgateway.py:ZIPGateway.onUnsolicitedMessage", "pyzwave/util.py:Listenable.speak", "pyzwave/zipconnection.py:ZIPConnection.onPacket", "pyzwave/adapter.py:Adapter.commandReceived"]}
{"id": "C110", "title": "Descriptions for the log never fail and tell what was received", "statement": "Every message that can be decoded, and every object in it, can be described: debugString returns a text and raises nothing. The text of a message of a registered class names its command class and command, then has one line for each attribute that was received, in the order of the class and indented by its depth; the line of a number tells that number (unsigned numbers in hexadecimal and decimal, bits in binary at full width), with the name of the value where the attribute is declared with an enum, and UNKNOWN where the enum has no such value; a message in an attribute is described likewise.", "quantifier": "every byte string that decodes, every object inside the message, every way python may print texts, floats, addresses and sets", "why_tests_cant": "debugString runs on every message that nobody handles, whether or not it is logged, so an exception in it breaks the handling of that message; which values get there depends on every parser, conversion and enum, including values outside the enum.", "anchors": ["pyzwave/util.py:AttributesMixin.debugString", "pyzwave/commandclass/CommandClass.py:VarDictAttribute", "pyzwave/message.py:Message.__repr__", "pyzwave/types.py:enum_t", "pyzwave/types.py:BitsBase.__repr__", "pyzwave/types.py:uint_t.__repr__", "pyzwave/types.py:dsk_t.__repr__", "pyzwave/node.py:Node.handleMessage", "pyzwave/application.py:Application.messageReceived", "pyzwave/zipconnection.py:ZIPConnection.onPacket"]}
{"id": "C111", "title": "A request of a node object ends", "statement": "A request to a node (sendAndReceive of a node or channel) never hangs: until it returns or raises there is always either a socket it waits for, a call on a connection whose timer fires or which is resumed once its time is over, or its own timer; so it ends whether sockets can be opened or not, without a message of any node, another request or anything of the application. With an event loop that does not fall behind it ends at most 3 seconds (the search for the address of the node), plus the time out of the sending, plus the extensions the node was granted, plus its own time out after it was made.", "quantifier": "every run of gateway, application and node objects together, every request, every outcome of opening sockets", "why_tests_cant": "A request passes through futures of the node object, of the gateway's connection and of a connection of the node, each popped and rearmed by others; a lost wake up shows only under particular interleavings, and then as a hang that a test with a time out of its own hides.", "anchors": ["pyzwave/node.py:Node.sendAndReceive", "pyzwave/util.py:MessageWaiter.waitForMessage", "pyzwave/node.py:Node.send", "pyzwave/zipgateway.py:ZIPGateway.sendToNode", "pyzwave/zipgateway.py:ZIPGateway.ipOfNode", "pyzwave/zipgateway.py:ZIPGateway.connectToNode", "pyzwave/zipconnection.py:ZIPConnection.send"]}
{"id": "C112", "title": "Association groups hold what the node reported for them", "statement": "The interview of Association asks how many groups the node has and then for each group known before or counted by the node, once each and no others; a group holds the maximum and the members of the last report returned to a question about it, and a report about another group changes nothing. A list the node sends in several reports is recorded whole. The interview raises nothing when every question is answered in full.", "quantifier": "every interleaving of interviews, other requests of the node, messages (any bytes), timers and time; every table of groups before; nodes with and without multi channel associations", "why_tests_cant": "Interviews share the node's waiters and the table of groups; which report is taken for which question depends on the interleaving and on what else the node sends.", "anchors": ["pyzwave/commandclass/Association.py:Association.interview", "pyzwave/commandclass/Association.py:Association.interviewGrouping", "pyzwave/commandclass/Association.py:Groupings.setNumGroups", "pyzwave/commandclass/CommandClass.py:CommandClass.sendAndReceive", "pyzwave/node.py:Node.sendAndReceive"]}
{"id": "C113", "title": "Recorded sensor scales are what the node reported for the sensor", "statement": "The interview of SensorMultilevel asks nothing below version 5, otherwise which sensors the node has and then the scales of each; it returns only if each was answered and raises only what a request raised or a type error after a report that was cut short. The scales recorded for a sensor are those of a report about that sensor, the last one returned to a question about it.", "quantifier": "every interleaving of interviews, other requests of the node, messages (any bytes), timers and time; every order in which python walks a set", "why_tests_cant": "A late or repeated report may be taken for the answer to the next question; whether that happens depends on the interleaving.", "anchors": ["pyzwave/commandclass/SensorMultilevel.py:SensorMultilevel.interview", "pyzwave/commandclass/CommandClass.py:CommandClass.sendAndReceive", "pyzwave/node.py:Node.sendAndReceive"]}
{"id": "C114", "title": "The lifeline is set up", "statement": "When the interview of Association of a Z-Wave Plus node that has a group 1 returns, the controller is a member of group 1. The command that adds it is sent only if the controller is missing there, in the multi channel form exactly if the node supports multi channel and multi channel associations, and group 1 is read again after it.", "quantifier": "every interleaving of interviews, other requests of the node, messages (any bytes), timers and time; every outcome of sending the command", "why_tests_cant": "Whether the controller is missing is decided on a table that overlapping interviews change, after any pattern of time outs and answers.", "anchors": ["pyzwave/commandclass/Association.py:Association.setupLifeLine", "pyzwave/commandclass/Association.py:Association.interview", "pyzwave/commandclass/Association.py:Association.interviewGrouping", "pyzwave/commandclass/Association.py:Nodes.contains"]}
{"id": "C115", "title": "connect() sets up the gateway", "statement": "connect() opens the socket, brings the gateway to stand alone mode, listens on the unsolicited port, tells the gateway to send unsolicited messages there, reads the node list unless nodes are known, and finds the address of each listed node that has none. It returns only when all this was done and answered; then exactly the listed nodes are known, each with an address. It raises only what one of these steps raised.", "quantifier": "every run of the gateway with any number of other calls; every message of the gateway (any bytes), every loss, time out and order of events; every order in which python walks a set", "why_tests_cant": "Each of the steps may fail, be answered late or not at all, and node lists that arrive meanwhile change the table connect() walks through.", "anchors": ["pyzwave/zipgateway.py:ZIPGateway.connect", "pyzwave/zipgateway.py:ZIPGateway.setupUnsolicitedConnection", "pyzwave/zipgateway.py:ZIPGateway.setGatewayMode", "pyzwave/zipgateway.py:ZIPGateway.getNodeList", "pyzwave/zipgateway.py:ZIPGateway.ipOfNode"]}
{"id": "C116", "title": "Interviews of associations and sensors end", "statement": "The interviews of Association and of SensorMultilevel end by themselves, whatever the node answers, even if it never answers and however sending their commands ends. The first asks two questions more than there are groups at most and sends one command at most; the second asks one question for each sensor the node named and one more. If sending takes no longer than D and the event loop does not fall behind, an interview takes D and three seconds per question and D per command at most.", "quantifier": "every interleaving of interviews, other requests of the node, messages (any bytes), timers and time, from any state reached; every outcome of sending; every bound D", "why_tests_cant": "An interview waits in many places, and other interviews change the groups and requests it depends on; tests see only some of the places where it could wait for ever.", "anchors": ["pyzwave/commandclass/Association.py:Association.interview", "pyzwave/commandclass/Association.py:Association.interviewGrouping", "pyzwave/commandclass/Association.py:Association.setupLifeLine", "pyzwave/commandclass/SensorMultilevel.py:SensorMultilevel.interview", "pyzwave/node.py:Node.sendAndReceive"]}
{"id": "C117", "title": "Interviews of nodes end", "statement": "Interviewing a node, one of its classes, or asking for the version of a class ends by itself, whatever the node answers, even if it never answers, however sending its questions ends and however the interviews of associations, group information and sensors end, provided they do. The interview of a node asks one question per class for its version and one more for each of Version, ZwavePlusInfo and ManufacturerSpecific at most. If sending takes no longer than D, the other interviews no longer than E, and the event loop does not fall behind, it takes D and three seconds per question and E per other interview at most.", "quantifier": "every list of classes, every interleaving of interviews, other requests of the node, messages (any bytes), timers and time, from any state reached; every outcome of sending and of the other interviews; all bounds D and E", "why_tests_cant": "An interview is a stack of coroutines waiting for one another; tests see only some of the places where it could wait for ever, and only some lists of classes.", "anchors": ["pyzwave/node.py:Node.interview", "pyzwave/commandclass/CommandClass.py:interviewDecorator", "pyzwave/commandclass/CommandClass.py:CommandClass.requestVersion", "pyzwave/commandclass/Version.py:Version.interview", "pyzwave/commandclass/ZwavePlusInfo.py:ZwavePlusInfo.interview", "pyzwave/commandclass/ManufacturerSpecific.py:ManufacturerSpecific.interview", "pyzwave/node.py:Node.sendAndReceive"]}
{"id": "C118", "title": "Handlers of association group information end", "statement": "Each handler of an association group report and each interview of the class ends, exactly once, however sending its questions ends. A report that describes n groups makes at most 2n questions, one after the other, an interview makes one, other reports none; when sending ended that often the handler has ended, and it asks nothing after that.", "quantifier": "all reports, complete or not, every interleaving of handlers, interviews and other changes, from every reachable state; all results of sending, errors included", "why_tests_cant": "A handler that awaits in a loop ends only if every path through the loop moves on; tests run a few reports with sending that succeeds.", "anchors": ["pyzwave/commandclass/AssociationGrpInfo.py:AssociationGrpInfo.__groupInfoReport__", "pyzwave/commandclass/AssociationGrpInfo.py:AssociationGrpInfo.__groupNameReport__", "pyzwave/commandclass/AssociationGrpInfo.py:AssociationGrpInfo.__groupCommandListReport__", "pyzwave/commandclass/AssociationGrpInfo.py:AssociationGrpInfo.interview"]}
{"id": "C119", "title": "Start-up, node list updates and message handling of the application end", "statement": "Application.startup(), nodeListUpdated(), loadNode(), messageReceived() and onMessageReceived() end if each of their awaits ends, whatever they are answered, including any node list and any number of end points, and whatever other calls run beside them. Until then the call waits for exactly one await, and any answer to it or exception makes it go on.", "quantifier": "all infinite executions from every reachable state, in which the call's awaits end (served); all answers and exceptions, every interleaving with other calls and with changes of the adapter's own id", "why_tests_cant": "Termination of the loops over a table that other calls change meanwhile concerns infinite executions; a test that hangs is a test that was never written.", "anchors": ["pyzwave/application.py:Application.startup", "pyzwave/application.py:Application.nodeListUpdated", "pyzwave/application.py:Application.loadNode", "pyzwave/application.py:Application.loadEndPointNode", "pyzwave/application.py:Application.messageReceived", "pyzwave/application.py:Application.onMessageReceived"]}
{"id": "C120", "title": "A configuration read returns the value the node reported for that parameter", "statement": "Configuration.get(number) returns, if the node is asked, the value of a report for this parameter that the node sent after it was asked, also when several reads run at the same time. With cached=True it returns the value reported last without asking, if there is one; otherwise it asks the node for exactly this parameter.", "quantifier": "all executions of any number of reads, other requests of the same node, messages and times, from any stored table; all parameter numbers and values", "why_tests_cant": "Tests make one read and answer it; which of several reads a report ends, and what a late or unsolicited report does, depends on the order of events.", "anchors": ["pyzwave/commandclass/Configuration.py:Configuration.get", "pyzwave/commandclass/Configuration.py:Configuration.__report__", "pyzwave/node.py:Node.sendAndReceive", "pyzwave/node.py:Node.handleMessage", "pyzwave/message.py:Message"]}
{"id": "C121", "title": "Node objects show what was reported last", "statement": "The object the application keeps for a node shows the device classes, the listening flag and the command classes of the adapter's last answer about this node, and the object of an end point those of the last answer about the end point, whatever calls overlap. An end point shows the basic device class and the listening flag of its node.", "quantifier": "all executions of any number of overlapping start-ups, node list updates and loads, all answers and exceptions", "why_tests_cant": "Tests load a node once; which object an end point refers to matters when loads overlap or one of them fails half way.", "anchors": ["pyzwave/application.py:Application.loadNode", "pyzwave/application.py:Application.loadEndPointNode", "pyzwave/application.py:Application.startup", "pyzwave/application.py:Application.nodeListUpdated", "pyzwave/node.py:NodeEndPoint.basicDeviceClass", "pyzwave/node.py:NodeEndPoint.listening", "pyzwave/node.py:NodeEndPoint.__init__"]}
{"id": "C122", "title": "A stored mailbox message goes back to the node that pushed it", "statement": "When the mailbox service hands a stored message over for delivery, it addresses it to a node that pushed this message to this queue before.", "quantifier": "all executions: any senders, handles, operations and interleavings of handlers and acknowledgements", "why_tests_cant": "Tests use one node and one queue handle; the handles are chosen by the nodes and an acknowledgement may leave its handle out.", "anchors": ["pyzwave/mailbox.py:MailboxService.__popQueue__", "pyzwave/mailbox.py:MailboxService.__pushQueue__", "pyzwave/mailbox.py:MailboxService.messageReceived"]}
{"id": "C123", "title": "A device finds its settings when its node is added", "statement": "Whatever happened before (restarts, other nodes, saves by any object), a node object that is added gets the versions and attributes that were last saved for its device before the object was created, and an object for a device whose settings were never saved is left as it is.", "quantifier": "all histories of object creation, changes, saves, loads, removals, restarts and interrupted saves, all node ids and contents", "why_tests_cant": "Tests save and load once; what is lost or mixed up depends on the order of reports, start-up and exclusions over months.", "anchors": ["pyzwave/persistantstorage.py:YamlStorage.nodeAdded", "pyzwave/persistantstorage.py:YamlStorage.nodeUpdated", "pyzwave/application.py:Application.startup", "pyzwave/application.py:Application.nodeListUpdated", "pyzwave/application.py:Application.messageReceived", "pyzwave/node.py:Node.commandClassUpdated"]}
{"id": "C124", "title": "The handling of mailbox messages ends", "statement": "A mailbox message is handled to its end: the handler calls sendToNode at most once, for the sender of the message, it ends as soon as that call has ended, and it raises only what that call raised. Messages that ask for nothing are ignored.", "quantifier": "all executions: any messages from any nodes, any interleaving of handlers, heartbeats and answers of the adapter", "why_tests_cant": "Tests await one handler at a time with a mock adapter.", "anchors": ["pyzwave/mailbox.py:MailboxService.messageReceived", "pyzwave/mailbox.py:MailboxService.__popQueue__", "pyzwave/mailbox.py:MailboxService.__pushQueue__"]}
{"id": "C125", "title": "A repeated packet is acted on once", "statement": "A command received on the unsolicited socket is handed to the node that sent it once: a packet that the gateway sends again, with the same sequence number, because its acknowledgement was lost is not acted on a second time, and no command is handed on without a packet of its own.", "quantifier": "all executions of the gateway object: any packets from any addresses at any times, any concurrent calls and any iteration order of node sets", "why_tests_cant": "Tests deliver each packet once and check what it causes.", "anchors": ["pyzwave/zipgateway.py:ZIPGateway.onUnsolicitedMessage"]}
{"id": "C126", "title": "The node table holds what the gateway reported", "statement": "A node is in the gateway object's node table only if the gateway named it in a node list report that was received, and its address is one that was found for this node. Node lists count only when they come from the gateway, and a node that the last report no longer names is not put into the table.", "quantifier": "all executions of the gateway object: any packets from any addresses, any answers, any concurrent calls, reports and connects, any iteration order of node sets", "why_tests_cant": "Tests handle one node list at a time, from one address, with the answers they need in order.", "anchors": ["pyzwave/zipgateway.py:ZIPGateway.onUnsolicitedMessage", "pyzwave/zipgateway.py:ZIPGateway.__handleNodeListReport__", "pyzwave/zipgateway.py:ZIPGateway.getNodeList", "pyzwave/zipgateway.py:ZIPGateway.setupUnsolicitedConnection"]}
{"id": "C127", "title": "Commands go to the address that the node has", "statement": "A command for a node is sent to the address that the node table gives for that node at that time; the address was found by a look up for this node.", "quantifier": "all executions of the gateway object: any sends, look ups, node list reports and answers in any order, any iteration order of node sets", "why_tests_cant": "Tests use one address per node; a node that rejoins with another one is not tried.", "anchors": ["pyzwave/zipgateway.py:ZIPGateway.connectToNode", "pyzwave/zipgateway.py:ZIPGateway.sendToNode", "pyzwave/zipgateway.py:ZIPGateway.ipOfNode"]}
{"id": "C128", "title": "Received commands are announced in the order of arrival", "statement": "A connection announces the commands it receives to its listeners in the order of arrival, unchanged and at most once each; for each call that was started to wait for a type of command at most one later command of this type is left out, and no others. What the gateway hands on from a node's connection are these commands in this order.", "quantifier": "all executions of a connection and of the gateway: any datagrams, calls, time outs and cancellations in any order", "why_tests_cant": "Tests send one command at a time; order and completeness over long mixed runs are not observed.", "anchors": ["pyzwave/zipconnection.py:ZIPConnection.onPacket", "pyzwave/adapter.py:Adapter.commandReceived", "pyzwave/zipgateway.py:ZIPGateway.onMessageReceived"]}
{"id": "C129", "title": "Entries of the provisioning list are decoded with their key and metadata", "statement": "Decoding a report about an entry of the gateway's provisioning list gives its sequence number, the number of remaining entries, the device's key, and for every type of metadata the data that the report has for it; metadata of a type the library does not know is skipped.", "quantifier": "all reports: any sequence number and count, any reserved bits, any key or none, any sequence of metadata of any types, flags and lengths", "why_tests_cant": "Tests decode one recorded report; combinations of metadata, repeated types and unknown types are unbounded.", "anchors": ["pyzwave/commandclass/NodeProvisioning.py:MetadataExtension.deserialize", "pyzwave/commandclass/NodeProvisioning.py:ListIterationReport.parse_dsk", "pyzwave/types.py:dsk_t.deserializeN"]}
{"id": "C130", "title": "The report about an added node is decoded with its classes", "statement": "Decoding the report that a node was added gives the sequence number, the status, the new node's id, its listening and optional-function flags and its three device classes as sent, and as the supported command classes as many of the bytes that follow as the report's length announces (seven less than the length), all of them if there are fewer, and none if the length is too small.", "quantifier": "all reports: any values of all fields, any reserved bits, any length field, any bytes after the fixed part", "why_tests_cant": "Tests decode two recorded reports; mismatches between the length and the bytes present are many.", "anchors": ["pyzwave/commandclass/NetworkManagementInclusion.py:NodeAddStatus.parse_commandClass", "pyzwave/message.py:Message.deserialize", "pyzwave/types.py:BitStreamReader.value"]}
{"id": "C131", "title": "A supervised command is decoded as it would be on its own", "statement": "Decoding a supervision request gives its flag, its session id and exactly the message that decoding the enclosed command alone gives, whatever follows the command; if the command alone cannot be decoded, decoding the request fails with the same exception.", "quantifier": "all flags, reserved bits and session ids, all enclosed byte strings of up to 255 bytes (any nesting), any bytes after them", "why_tests_cant": "Enclosed commands can be of any class and nested to any depth; tests use one.", "anchors": ["pyzwave/commandclass/Supervision.py:Get.parse_command", "pyzwave/message.py:Message.decode"]}
{"id": "C132", "title": "The queue handle of a failing node is found in both formats", "statement": "A notice that the mailbox queue of a node fails gives the queue's handle both when the notice has the one byte the specification demands and when it has the sixteen bytes the gateway sends, the handle being the last.", "quantifier": "all handles and all other fifteen bytes", "why_tests_cant": "A test shows one notice of one format.", "anchors": ["pyzwave/commandclass/Mailbox.py:NodeFailing.parse_queueHandle"]}
