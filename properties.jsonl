{"id": "C01", "title": "Silence before CONNECT", "statement": "From Xcp_Init until a CONNECT command (0xFF) is received, no received command produces any frame and none changes target memory, the DAQ configuration, the protection status, the MTA, the programming state or the busy flag.", "quantifier": "every configuration, every history of received frames, main-function calls and event triggers that contains no CONNECT", "why_tests_cant": "a test sends a few commands; the claim is about every command byte, every payload and every history length", "anchors": ["src/xcp.c:945-973 Xcp_DispatchCommand", "src/xcp.c:640-677 Xcp_Init"]}
{"id": "C02", "title": "CONNECT always succeeds and reports the compiled parameters", "statement": "In every state that is not busy, CONNECT yields exactly one positive response carrying the resource mask, comm mode, MAX_CTO, MAX_DTO and version bytes of the configuration, the slave is connected afterwards, and nothing else of the session (protection, DAQ configuration, MTA, memory) changes.", "quantifier": "every configuration and every state that is not busy", "why_tests_cant": "the state space of the slave is unbounded (memory, DAQ tables, counters)", "anchors": ["src/xcp.c:1000-1042 Xcp_Connect_Res"]}
{"id": "C03", "title": "DISCONNECT ends the session", "statement": "After DISCONNECT has been acknowledged the slave behaves like a not-connected slave: every further command other than CONNECT is ignored.", "quantifier": "every session that ends with DISCONNECT and every following command", "why_tests_cant": "tests check the acknowledge byte, not all follow-up commands", "anchors": ["src/xcp.c:698-704 Xcp_Disconnect", "src/xcp.c:1044-1050 Xcp_Disconnect_Res", "src/xcp.c:945-973"]}
{"id": "C04", "title": "Busy slave answers only ERR_CMD_BUSY", "statement": "While the slave is busy (block upload or background checksum), every received command is answered by exactly one ERR_CMD_BUSY frame and changes nothing but counters, the transmit buffer and the receive buffer.", "quantifier": "every connected busy state and every received frame", "why_tests_cant": "busy windows depend on the interleaving of main function and reception", "anchors": ["src/xcp.c:945-973", "src/xcp.c:2253-2258 Xcp_BusyResponse"]}
{"id": "C05", "title": "Every command byte is handled within the command table", "statement": "Every command byte a connected master can send selects an entry of the command table; codes the build does not implement are answered with ERR_CMD_UNKNOWN and change nothing.", "quantifier": "all 256 command bytes in every connected state", "why_tests_cant": "the undefined behaviour of an out-of-range table access is not observable reliably in a test", "anchors": ["src/xcp.c:383-635 Xcp_ServerCommands", "src/xcp.c:957", "src/xcp.c:995-998"]}
{"id": "C06", "title": "Each command gets exactly one response", "statement": "A connected, non-busy slave answers every implemented command with exactly one frame whose first byte is 0xFF or 0xFE, except: USER_CMD (no response), the non-final frames of a master block download, and a checksum that is computed in the background (answered later).", "quantifier": "every configuration, state, and command frame", "why_tests_cant": "needs all error paths of all handlers in all states", "anchors": ["src/xcp.c:1000-2100 all *_Res handlers"]}
{"id": "C07", "title": "Frames respect MAX_CTO / MAX_DTO and are well formed", "statement": "Every frame ever transmitted has a payload of 1..MAX_CTO (command channel) or 1..MAX_DTO (DAQ channel) bytes, and its transport header carries exactly the payload length (modulo the width of the length field) and the frame counter.", "quantifier": "every configuration with valid sizes, every execution", "why_tests_cant": "executions are unbounded", "anchors": ["src/xcp.c:732-788 Xcp_SendCto/Xcp_SendDto", "src/xcp.c:808-856 Xcp_Send8"]}
{"id": "C08", "title": "Frame counters are consecutive across both channels", "statement": "In every execution the i-th transmitted frame carries the counter (c0 + i) modulo the counter field's range, where command responses, events and DAQ frames share one counter; the transmit statistic grows by exactly the number of frames.", "quantifier": "every execution of any length, including wrap-around of the counter", "why_tests_cant": "wrap-around needs 65536 frames and any mix of frame kinds", "anchors": ["src/xcp.c:732-788"]}
{"id": "C09", "title": "A receiver can split the transmitted byte stream into the original packets", "statement": "For configurations with a length field, decoding the concatenation of all transmitted frames by reading length fields yields exactly the transmitted payloads, in order, with their counters.", "quantifier": "every list of transmitted frames", "why_tests_cant": "framing ambiguity shows only for particular payload sequences", "anchors": ["src/xcp.c:732-788", "inc/xcp.h:233-235"]}
{"id": "C10", "title": "Parameter codec is lossless in both byte orders", "statement": "Writing a 16/32-bit value with the PDU setter and reading it with the matching getter returns the value; other bytes keep their value; the Intel and Motorola layouts are the documented ones.", "quantifier": "every value, offset and buffer, both byte orders", "why_tests_cant": "2^32 values times offsets", "anchors": ["src/xcp.c:2152-2200"]}
{"id": "C11", "title": "Multi-byte response fields use the advertised byte order", "statement": "Every multi-byte field in a response (MAX_DTO, GET_ID length, checksum, DAQ clock, list count) is encoded in the byte order announced by CONNECT.", "quantifier": "every configuration, state and command", "why_tests_cant": "tests run only one byte order", "anchors": ["src/xcp.c:1031-1037", "src/xcp.c:1134-1137", "src/xcp.c:1297-1302", "src/xcp.c:1866-1869"]}
{"id": "C12", "title": "A locked DAQ resource cannot be configured or started", "statement": "While the DAQ resource is protected, no received command allocates, writes, selects or starts DAQ lists: the DAQ configuration stays what it was or is reset to the empty, stopped configuration (by DISCONNECT or a failed UNLOCK).", "quantifier": "every history of commands during which the DAQ bit stays protected", "why_tests_cant": "histories are unbounded and attackers pick them", "anchors": ["src/xcp.c:109-115 XCP_ASSERT_UNLOCKED", "src/xcp.c:1500-1930"]}
{"id": "C13", "title": "Protection is lifted only by an accepted key for a requested resource", "statement": "A protection bit goes from locked to unlocked only in a step that handles an UNLOCK command which the key hook accepted, and only if GET_SEED for that resource was answered since the last UNLOCK or disconnect.", "quantifier": "every history of API calls and hook answers", "why_tests_cant": "requires reasoning over all histories", "anchors": ["src/xcp.c:1140-1233 Xcp_GetSeed_Res/Xcp_Unlock_Res"]}
{"id": "C14", "title": "Disconnect and failed UNLOCK re-lock everything", "statement": "After DISCONNECT or a rejected key, the protection status equals the configured default, no seed is pending, the DAQ processor is stopped and the DAQ configuration is empty.", "quantifier": "every state", "why_tests_cant": "state space unbounded", "anchors": ["src/xcp.c:679-704", "src/xcp.c:1206-1233", "src/xcp_daq.c:281-307"]}
{"id": "C15", "title": "A locked CAL resource cannot be written", "statement": "While the CAL/PAG resource is protected, no received command changes target memory.", "quantifier": "every history during which the CAL bit stays protected", "why_tests_cant": "attackers choose the history", "anchors": ["src/xcp.c:1366-1490"]}
{"id": "C16", "title": "Programming and measurement exclude each other", "statement": "In every reachable state it is not the case that programming mode is active while DAQ is running; programming mode is entered only by PROGRAM_START with the PGM resource unlocked and DAQ stopped.", "quantifier": "every execution", "why_tests_cant": "order of commands is arbitrary", "anchors": ["src/xcp.c:1939-1954", "src/xcp.c:1701-1721"]}
{"id": "C17", "title": "Calibration writes are refused while programming", "statement": "While programming mode is active no received command changes target memory.", "quantifier": "every state with programming active and every command", "why_tests_cant": "needs all commands in all states", "anchors": ["src/xcp.c:1366-1490"]}
{"id": "C18", "title": "Memory access hook guards every write", "statement": "If the access hook denies every access, no received command changes target memory. Every byte that a received command changes lies in a range for which the hook has agreed.", "quantifier": "every state, every command", "why_tests_cant": "needs all handlers", "anchors": ["src/xcp.c:117-128 XCP_CHECK_MEMORY_ACCESS", "src/xcp.c:1366-1490"]}
{"id": "C19", "title": "Memory access hook guards every read", "statement": "UPLOAD and SHORT_UPLOAD return data only from address ranges for which the access hook was asked and agreed.", "quantifier": "every state, address, length and hook", "why_tests_cant": "hook policies are arbitrary", "anchors": ["src/xcp.c:1238-1280"]}
{"id": "C20", "title": "UPLOAD returns exactly the addressed memory", "statement": "Outside slave block mode UPLOAD n answers 0xFF followed by the n bytes at the MTA, advances the MTA by n, and changes no memory; n greater than MAX_CTO-1 is refused without effect.", "quantifier": "every state, memory, address and n", "why_tests_cant": "address and memory contents are unbounded", "anchors": ["src/xcp.c:914-937 Xcp_Upload", "src/xcp.c:1238-1259"]}
{"id": "C21", "title": "SHORT_UPLOAD returns exactly the addressed memory", "statement": "SHORT_UPLOAD n ext addr answers 0xFF followed by the n bytes at addr and leaves the MTA at addr+n with extension ext.", "quantifier": "every state, memory, address and n", "why_tests_cant": "address and memory contents are unbounded", "anchors": ["src/xcp.c:1261-1280"]}
{"id": "C22", "title": "Slave block mode delivers the whole block and ends", "statement": "In slave block mode, UPLOAD n followed by main-function calls emits exactly ceil(n/(MAX_CTO-1)) frames whose payloads concatenate to the n bytes at the MTA, the slave is busy exactly until the last frame, and the MTA ends at MTA+n.", "quantifier": "every block length 1..255, MAX_CTO, memory and state", "why_tests_cant": "all lengths times all memories", "anchors": ["src/xcp.c:859-937"]}
{"id": "C23", "title": "DOWNLOAD writes exactly the sent bytes", "statement": "DOWNLOAD n writes the n data bytes at the MTA, leaves every other byte unchanged, advances the MTA by n and answers 0xFF; a following SET_MTA/UPLOAD reads the same bytes back.", "quantifier": "every state, data and address", "why_tests_cant": "address and memory contents are unbounded", "anchors": ["src/xcp.c:1366-1398", "src/xcp.c:2317-2326 Xcp_Download_Copy"]}
{"id": "C24", "title": "Master block mode reassembles the block", "statement": "A DOWNLOAD of n bytes continued by DOWNLOAD_NEXT frames carrying the correct remaining count writes exactly the n bytes in order and answers once, after the last frame.", "quantifier": "every n up to the block limit and every data", "why_tests_cant": "all lengths and contents", "anchors": ["src/xcp.c:1366-1424"]}
{"id": "C25", "title": "Master block mode rejects wrong remaining counts", "statement": "A DOWNLOAD_NEXT whose remaining count differs from the slave's expectation is answered with ERR_SEQUENCE and writes nothing; no block transfer writes more bytes than announced by DOWNLOAD.", "quantifier": "every DOWNLOAD/DOWNLOAD_NEXT history", "why_tests_cant": "needs adversarial histories", "anchors": ["src/xcp.c:1400-1424"]}
{"id": "C26", "title": "SHORT_DOWNLOAD effects", "statement": "SHORT_DOWNLOAD n ext addr writes exactly the n bytes at addr and leaves the MTA at addr+n.", "quantifier": "every state, data and address", "why_tests_cant": "address and memory contents are unbounded", "anchors": ["src/xcp.c:1440-1469"]}
{"id": "C27", "title": "MODIFY_BITS computes the specified value", "statement": "MODIFY_BITS shift and xor replaces the 32-bit value A at the MTA by (A AND NOT(NOT and << shift)) XOR (xor << shift).", "quantifier": "every value, mask and shift", "why_tests_cant": "2^72 inputs", "anchors": ["src/xcp.c:1471-1490"]}
{"id": "C28", "title": "Only write commands modify target memory", "statement": "Receiving any command other than DOWNLOAD, DOWNLOAD_NEXT, DOWNLOAD_MAX, SHORT_DOWNLOAD and MODIFY_BITS, running the main function, triggering events or sending event packets never changes target memory.", "quantifier": "every execution", "why_tests_cant": "executions are unbounded", "anchors": ["src/xcp.c:945-2100", "src/xcp_daq.c:487-554"]}
{"id": "C29", "title": "PROGRAM stores the data", "statement": "A positively acknowledged PROGRAM n stores the n data bytes at the MTA.", "quantifier": "every state with programming active", "why_tests_cant": "tests check the acknowledge only", "anchors": ["src/xcp.c:1966-1981"]}
{"id": "C30", "title": "Zero-length and NULL transfers are handled", "statement": "No UPLOAD/SHORT_UPLOAD/DOWNLOAD/SHORT_DOWNLOAD parameter makes the slave abort.", "quantifier": "all 256 length values and all addresses in every state", "why_tests_cant": "corner values", "anchors": ["src/xcp_util.c:33-44 XcpUtl_MemCopy", "src/xcp.c:914-937"]}
{"id": "C31", "title": "A response depends only on the received command", "statement": "The effect of a received frame depends on the slave state and the received bytes only, not on bytes left over from earlier frames.", "quantifier": "every pair of histories that agree on the protocol state", "why_tests_cant": "two-run (hyper)property", "anchors": ["src/xcp.c:945-973", "src/xcp.c:2152-2180"]}
{"id": "C32", "title": "DAQ allocation follows the protocol's sequence", "statement": "FREE_DAQ, ALLOC_DAQ, ALLOC_ODT and ALLOC_ODT_ENTRY are accepted exactly in the order the protocol prescribes; a call out of sequence or exceeding the pool is answered ERR_SEQUENCE / ERR_MEMORY_OVERFLOW and leaves the configuration unchanged.", "quantifier": "every sequence of allocation calls", "why_tests_cant": "sequences are unbounded", "anchors": ["src/xcp_daq.c:111-122", "src/xcp_daq.c:161-270"]}
{"id": "C33", "title": "DAQ pool is never over-allocated", "statement": "In every execution the number of allocated entities equals lists + ODTs + entries, never exceeds the pool size, and the unallocated part of the pool stays unused.", "quantifier": "every execution", "why_tests_cant": "sequences are unbounded", "anchors": ["src/xcp_daq.c:161-270"]}
{"id": "C34", "title": "DAQ tables represent the requested configuration", "statement": "For a master that allocates ODTs once per list and entries once per ODT with valid numbers, the tables represent exactly the requested nested configuration: every list has its ODTs, every ODT its entries, and no two entries share a table slot.", "quantifier": "every rule-abiding allocation history of any size", "why_tests_cant": "configurations are unbounded trees", "anchors": ["src/xcp_daq.c:183-270", "src/xcp_daq.c:309-329", "src/xcp_daq.c:617-632"]}
{"id": "C35", "title": "Invalid DAQ list or ODT numbers are rejected", "statement": "ALLOC_ODT / ALLOC_ODT_ENTRY for a list or ODT that does not exist is answered ERR_OUT_OF_RANGE and changes nothing.", "quantifier": "every allocation history", "why_tests_cant": "needs adversarial histories", "anchors": ["src/xcp_daq.c:208-256"]}
{"id": "C36", "title": "SET_DAQ_PTR accepts exactly existing entries", "statement": "SET_DAQ_PTR is answered positively iff list, ODT and entry exist in the current configuration, and then exactly the pointer changes; otherwise ERR_OUT_OF_RANGE and nothing changes.", "quantifier": "every represented configuration and every triple", "why_tests_cant": "configurations are unbounded", "anchors": ["src/xcp.c:1512-1541", "src/xcp_daq.c:447-468"]}
{"id": "C37", "title": "WRITE_DAQ defines exactly the pointed entry", "statement": "With a valid DAQ pointer WRITE_DAQ (and each element of WRITE_DAQ_MULTIPLE) sets address and size of exactly that entry and advances the pointer; no other entry, ODT or list changes.", "quantifier": "every represented configuration and pointer", "why_tests_cant": "configurations are unbounded", "anchors": ["src/xcp.c:1543-1601", "src/xcp.c:2341-2363"]}
{"id": "C38", "title": "WRITE_DAQ cannot leave its ODT", "statement": "However many WRITE_DAQ commands follow a SET_DAQ_PTR, only entries of the selected ODT change.", "quantifier": "every number of WRITE_DAQ commands", "why_tests_cant": "needs arbitrarily long histories", "anchors": ["src/xcp.c:2341-2363"]}
{"id": "C39", "title": "Absolute ODT numbers identify ODTs uniquely", "statement": "The first PID reported for a list is the number of ODTs of all preceding lists; PIDs of different ODTs differ and stay below the reserved packet identifiers 0xFC..0xFF.", "quantifier": "every represented configuration", "why_tests_cant": "configurations are unbounded", "anchors": ["src/xcp_daq.c:660-680", "src/xcp_daq.c:487-554"]}
{"id": "C40", "title": "An event samples exactly the assigned list", "statement": "While DAQ runs, triggering an event emits one frame per ODT of the list assigned to that event, in order: PID, time stamp in the first frame if requested, then the bytes of memory of each entry in order; nothing else is sent and no memory changes.", "quantifier": "every represented configuration, memory and event", "why_tests_cant": "configurations and memories are unbounded", "anchors": ["src/xcp_daq.c:487-554", "src/xcp_daq.c:604-615"]}
{"id": "C41", "title": "No DAQ frames unless running", "statement": "If DAQ is not running (in particular after START_STOP_SYNCH stop-all, DISCONNECT, Xcp_Init), triggering any event sends nothing and changes nothing.", "quantifier": "every state and event number", "why_tests_cant": "state space unbounded", "anchors": ["src/xcp_daq.c:510-516", "src/xcp.c:1701-1721"]}
{"id": "C42", "title": "Only started lists with an assigned event are sampled", "statement": "An event that no SET_DAQ_LIST_MODE assigned to a list, or whose list was not started, transmits nothing; list modes are independent of each other.", "quantifier": "every configuration history", "why_tests_cant": "needs multi-list histories", "anchors": ["src/xcp_daq.c:354-378 XcpDaq_GetListState", "src/xcp_daq.c:487-554"]}
{"id": "C43", "title": "DAQ transmit queue is a bounded FIFO", "statement": "The DTO queue delivers enqueued frames in order without loss or duplication while at most four are pending, refuses and flags overload beyond that, for any number of operations.", "quantifier": "every sequence of enqueue/dequeue operations", "why_tests_cant": "sequences are unbounded", "anchors": ["src/xcp_daq.c:44", "src/xcp_daq.c:710-754"]}
{"id": "C44", "title": "DAQ configuration is frozen while running", "statement": "While DAQ is running, no command changes the tables, the DAQ pointer or event assignments (ERR_DAQ_ACTIVE is answered).", "quantifier": "every state with DAQ running, every command", "why_tests_cant": "needs all handlers", "anchors": ["src/xcp.c:79-88", "src/xcp.c:1796-1853"]}
{"id": "C45", "title": "SET_DAQ_LIST_MODE only accepts existing lists and events", "statement": "SET_DAQ_LIST_MODE with an event number or list number that does not exist is answered ERR_OUT_OF_RANGE and changes nothing.", "quantifier": "every list and event number", "why_tests_cant": "2^32 pairs; memory corruption is not visible in a test", "anchors": ["src/xcp.c:1603-1669", "src/xcp_daq.c:477-481"]}
{"id": "C46", "title": "CRC checksums equal the polynomial definition", "statement": "The table-driven CRC-16, CRC-16-CITT and CRC-32 equal the bit-by-bit polynomial division of the message for the documented parameters.", "quantifier": "every message of any length", "why_tests_cant": "messages are unbounded", "anchors": ["src/xcp_checksum.c:68-325"]}
{"id": "C47", "title": "ADD checksums equal the arithmetic sum", "statement": "ADD_11/12/14 (22/24/44) equal the sum of the bytes (little-endian words / dwords) modulo the result width.", "quantifier": "every message of any length", "why_tests_cant": "messages are unbounded", "anchors": ["src/xcp_checksum.c:288-325"]}
{"id": "C48", "title": "Background checksum equals the one-shot checksum", "statement": "A checksum of a block larger than the chunk size, computed chunk by chunk in the main function, reads exactly the block, answers after finitely many main-function calls with the same value as the one-shot computation, and the slave is busy exactly until the answer.", "quantifier": "every block size, chunk size, memory", "why_tests_cant": "all sizes", "anchors": ["src/xcp_checksum.c:330-389", "src/xcp.c:1314-1346"]}
{"id": "C49", "title": "BUILD_CHECKSUM limits and MTA", "statement": "BUILD_CHECKSUM of a block above the configured maximum is answered with ERR_OUT_OF_RANGE and the maximum; otherwise the MTA is post-incremented by the block size.", "quantifier": "every block size", "why_tests_cant": "2^32 sizes", "anchors": ["src/xcp.c:1304-1346"]}
{"id": "C50", "title": "Critical sections nest safely", "statement": "No API call acquires a lock it already holds, so the slave cannot dead-lock itself with non-recursive mutexes; every call releases what it acquired.", "quantifier": "every API call in every state", "why_tests_cant": "dead-lock depends on configuration and state", "anchors": ["src/xcp.c:863-869", "src/xcp.c:2223-2227", "src/xcp_checksum.c:338-350", "src/hw/posix/hw.c:103-131"]}
{"id": "C51", "title": "GET_DAQ_CLOCK honours clock-access-always", "statement": "With the option clock-access-always GET_DAQ_CLOCK is answered with the time stamp even if DAQ is locked.", "quantifier": "every state", "why_tests_cant": "configuration dependent", "anchors": ["src/xcp.c:1855-1871"]}
{"id": "C52", "title": "GET_DAQ_PROCESSOR_INFO describes the real capabilities", "statement": "The properties byte announces prescaler support iff prescalers above one are accepted by SET_DAQ_LIST_MODE; list and event counts are exact.", "quantifier": "every configuration and state", "why_tests_cant": "configuration dependent", "anchors": ["src/xcp.c:1733-1758", "src/xcp_daq.c:565-582", "src/xcp.c:1647-1653"]}
{"id": "C53", "title": "Event and service packets", "statement": "An event or service packet carries its identifier, code and at most MAX_CTO-2 bytes of data, truncated silently, and touches no other state than counters and the transmit buffer.", "quantifier": "every code, data and length", "why_tests_cant": "lengths and contents", "anchors": ["src/xcp.c:2262-2302"]}
{"id": "C54", "title": "Memory comparison", "statement": "XcpUtl_MemCmp returns true iff both regions have equal contents over a non-zero length and reads no byte outside the regions.", "quantifier": "every pair of regions and length", "why_tests_cant": "lengths are unbounded; over-reads are invisible", "anchors": ["src/xcp_util.c:56-72"]}
{"id": "C55", "title": "Number formatting", "statement": "XcpUtl_Itoa writes the shortest base-b numeral of the value (with minus sign for negative base-10 values), NUL-terminated.", "quantifier": "every 32-bit value and base 2..36", "why_tests_cant": "2^32 values", "anchors": ["src/xcp_util.c:82-115"]}
{"id": "C56", "title": "SXI receiver reassembles frames", "statement": "Feeding the bytes of any sequence of well-formed frames (length 1..MAX_CTO) one by one dispatches exactly those payloads in order and leaves the receiver idle.", "quantifier": "every sequence of frames", "why_tests_cant": "streams are unbounded", "anchors": ["src/tl/sxi/xcp_tl.c:95-139"]}
{"id": "C57", "title": "SXI receiver tolerates any input", "statement": "For every byte stream the receiver never writes outside its buffer.", "quantifier": "every byte stream", "why_tests_cant": "adversarial streams", "anchors": ["src/tl/sxi/xcp_tl.c:106-139"]}
{"id": "C58", "title": "SXI inter-byte timeout", "statement": "A receiver stuck inside a frame returns to idle once the configured timeout elapsed since the last byte and never earlier.", "quantifier": "every schedule of bytes and timer polls", "why_tests_cant": "schedules are unbounded", "anchors": ["src/tl/xcp_tl_timeout.c"]}
{"id": "C59", "title": "Ethernet receive path tolerates any fragmentation", "statement": "However the TCP stream is cut into recv() results, each frame is delivered once, complete and unmodified.", "quantifier": "every fragmentation of every frame", "why_tests_cant": "fragmentations are exponential in number", "anchors": ["src/tl/eth/common.c:80-188"]}
{"id": "C60", "title": "Ethernet receive path checks lengths", "statement": "A frame whose length field exceeds the receive buffer is rejected without writing outside the buffer.", "quantifier": "every length field value", "why_tests_cant": "memory corruption is not visible in a test", "anchors": ["src/tl/eth/common.c:116-188"]}
{"id": "C61", "title": "Flash emulation erases exactly the requested area", "statement": "EraseBlock / ErasePage / EraseSector set exactly the addressed range to 0xFF and leave everything else unchanged.", "quantifier": "every segment geometry, address and content", "why_tests_cant": "geometries and contents are unbounded", "anchors": ["flsemu/common.c:163-227"]}
{"id": "C62", "title": "Flash emulation address mapping", "statement": "The memory mapper translates an address inside a segment window to the selected page of that segment and reports unmapped addresses or invalid pages.", "quantifier": "every segment list, address and page", "why_tests_cant": "unbounded segment lists", "anchors": ["flsemu/common.c:229-256"]}
{"id": "C63", "title": "Time difference", "statement": "The elapsed-time computation returns the normalised difference of two time stamps for every ordered pair.", "quantifier": "all pairs of time stamps", "why_tests_cant": "2^128 pairs", "anchors": ["src/hw/linux/hw.c:243-293"]}
{"id": "C64", "title": "Short responses carry their own bytes", "statement": "Every response built from up to eight bytes is transmitted with exactly those bytes, in every configuration of frame padding and MAX_CTO.", "quantifier": "every response, every configuration", "why_tests_cant": "the faulty configuration is a combination of two independent options with a particular frame size", "anchors": ["src/xcp.c:800-855"]}
{"id": "C65", "title": "Memory copy and fill", "statement": "XcpUtl_MemCopy copies the given number of bytes as long as a forward copy is admissible, and touches nothing else; XcpUtl_MemSet fills exactly the given range.", "quantifier": "all memories, addresses, lengths and overlaps", "why_tests_cant": "contents, lengths and overlaps are unbounded", "anchors": ["src/xcp_util.c:33-54"]}
{"id": "C66", "title": "DAQ list numbers are not truncated", "statement": "The number of DAQ lists a master may use after ALLOC_DAQ is the number it asked for, whenever the command was answered positively.", "quantifier": "every ALLOC_DAQ count from 0 to 65535, every pool size", "why_tests_cant": "the failing counts are those from 256 on, in relation to the pool size", "anchors": ["src/xcp_daq.c"]}
{"id": "C67", "title": "Padding does not disclose old data", "statement": "With XCP_ON_CAN_MAX_DLC_REQUIRED (frames always of maximum length) the padding bytes of a frame are independent of frames sent or received earlier.", "quantifier": "every history, every response", "why_tests_cant": "the leaked bytes depend on an unbounded history", "anchors": ["src/xcp.c:800-870"]}
{"id": "C68", "title": "Linux DAQ clock", "statement": "XcpHw_GetTimerCounter returns the time since start in the configured time stamp unit, modulo the size of the time stamp.", "quantifier": "every time, every unit and time stamp size", "why_tests_cant": "wrap-around points lie hours to centuries apart", "anchors": ["src/hw/linux/hw.c:256-287"]}
{"id": "C69", "title": "Windows DAQ clock", "statement": "XcpHw_GetTimerCounter returns the time since start in the configured time stamp unit for every frequency of the performance counter.", "quantifier": "every time and frequency", "why_tests_cant": "the frequency is a property of the machine", "anchors": ["src/hw/win/hw.c"]}
{"id": "C70", "title": "Flash emulation is usable after initialisation", "statement": "After FlsEmu_Init, erase operations and the memory mapper work on the configured segments.", "quantifier": "every configuration, operation and address", "why_tests_cant": "configurations are unbounded", "anchors": ["flsemu/common.c:72-149", "flsemu/common.c:229-253"]}
{"id": "C71", "title": "CAN acceptance", "statement": "Only frames with the inbound or the broadcast identifier are taken for XCP commands.", "quantifier": "every identifier, inbound and broadcast identifier", "why_tests_cant": "2^29 identifiers for each of 2^58 configurations", "anchors": ["src/tl/can/linux_socket_can.c:118-123"]}
{"id": "C72", "title": "Transmit request signalling", "statement": "XcpHw_SignalTransmitRequest wakes up a waiting transmit thread and returns, however often it is called.", "quantifier": "every schedule of signalling and waiting threads", "why_tests_cant": "thread interleavings", "anchors": ["src/hw/posix/hw.c:133-140"]}
{"id": "C73", "title": "Ethernet receive path with UDP", "statement": "With UDP each datagram that holds one XCP message is delivered once, complete and unmodified.", "quantifier": "every sequence of datagrams", "why_tests_cant": "sequences of datagrams are unbounded", "anchors": ["src/tl/eth/common.c:80-188"]}
{"id": "C74", "title": "Only the connected master is obeyed", "statement": "While a session is established, commands from another peer than the one which connected do not change the state of the slave.", "quantifier": "every history of datagrams from every set of peers", "why_tests_cant": "adversarial interleavings", "anchors": ["src/tl/eth/common.c:80-240"]}
{"id": "C75", "title": "CAN frames stay inside their buffers", "statement": "Neither reception nor transmission of a CAN or CAN FD frame writes outside of the buffers, whatever the length of the frame.", "quantifier": "every frame length, every MAX_CTO and MAX_DTO", "why_tests_cant": "memory corruption is not visible in a test", "anchors": ["src/tl/can/linux_socket_can.c:143-167", "src/tl/can/linux_socket_can.c:201-218"]}
{"id": "C76", "title": "Example seed and key", "statement": "In the example application only the key belonging to the last seed unlocks a resource, and the seeds are unpredictable enough to be all different over the period of the clock.", "quantifier": "every clock reading and key", "why_tests_cant": "2^64 combinations", "anchors": ["examples/xcpsim/app_config.c:95-120"]}
{"id": "C77", "title": "A lost connection ends the session", "statement": "With TCP, when the connection of the master is lost the session ends: the next peer has to connect, and to unlock the resources again.", "quantifier": "every history, every peer", "why_tests_cant": "the sequence of connections is unbounded", "anchors": ["src/tl/eth/common.c:143-215"]}
{"id": "C78", "title": "GET_STATUS and SYNCH", "statement": "GET_STATUS reports the current protection status of the resources and, in bit 6 of the session status, whether a measurement is running; SYNCH is answered with ERR_CMD_SYNCH. Neither changes the session.", "quantifier": "every reachable state", "why_tests_cant": "the status is that of an unbounded history", "anchors": ["src/xcp.c:1052-1072"]}
{"id": "C79", "title": "The identification announced by GET_ID can be uploaded", "statement": "GET_ID answers the length of the requested identification and sets the MTA such that a following UPLOAD delivers its text; unknown types have length zero and leave the MTA alone.", "quantifier": "every identification type, every state, every piece length", "why_tests_cant": "two commands in any state, and hook answers of any length", "anchors": ["src/xcp.c:1100-1136"]}
{"id": "C80", "title": "The announced capabilities are the compiled ones", "statement": "GET_COMM_MODE_INFO, GET_DAQ_EVENT_INFO, GET_DAQ_RESOLUTION_INFO, GET_PGM_PROCESSOR_INFO and GET_SECTOR_INFO describe the build: block mode parameters, event channels, time stamp format, maximum ODT entry size and flash sectors; a master can rely on what they say.", "quantifier": "every configuration, event channel and sector", "why_tests_cant": "a test runs one configuration", "anchors": ["src/xcp.c:1076-1094", "src/xcp.c:1875-1930", "src/xcp.c:1993-2040"]}
{"id": "C81", "title": "Programming mode", "statement": "PROGRAM_START enters programming mode if PGM is unlocked and no measurement is running; the programming commands are refused with ERR_SEQUENCE outside of it; PROGRAM_RESET leaves it. Nothing else of the session changes.", "quantifier": "every reachable state and programming command", "why_tests_cant": "all commands in all states", "anchors": ["src/xcp.c:1939-2100"]}
{"id": "C82", "title": "GET_SEED and UNLOCK", "statement": "GET_SEED delivers the whole seed of a locked resource, over several frames if it is long, and length zero for an unprotected one; UNLOCK needs a preceding GET_SEED and answers the new protection status.", "quantifier": "every seed, resource and state", "why_tests_cant": "seeds and keys are supplied by the user", "anchors": ["src/xcp.c:1140-1234"]}
{"id": "C83", "title": "CLEAR_DAQ_LIST and GET_DAQ_LIST_MODE", "statement": "CLEAR_DAQ_LIST removes the entries of the given list; GET_DAQ_LIST_MODE returns the mode, event channel and prescaler of the given list. Both reject lists that do not exist.", "quantifier": "every configuration and list number", "why_tests_cant": "every configuration has to be considered", "anchors": ["src/xcp.c:1500-1510", "src/xcp.c:1723-1729"]}
{"id": "C84", "title": "CAN identification commands", "statement": "GET_SLAVE_ID echoes the pattern (or its complement) and gives the identifier for commands; GET_DAQ_ID gives the identifier of the requested DAQ list in either byte order.", "quantifier": "every state, list number and byte order", "why_tests_cant": "a test runs one configuration", "anchors": ["src/xcp.c:1347-1350", "src/tl/can/arduino_can.cpp:228-296"]}
{"id": "C85", "title": "DOWNLOAD_MAX writes exactly the sent bytes", "statement": "DOWNLOAD_MAX stores all MAX_CTO - 1 bytes of the frame from the MTA on and nothing else, and advances the MTA past them.", "quantifier": "every frame, address and memory contents", "why_tests_cant": "what is not written is all of the rest of memory", "anchors": ["src/xcp.c:1426-1434"]}
{"id": "C86", "title": "Exactly which operations stay clear of undefined behaviour", "statement": "Whether an operation of the slave ends normally (no out-of-range access, no failed assertion, no undefined arithmetic) is decided by stated rules: commands that touch neither memory, seeds nor DAQ tables are defined in every state with any parameters; each memory command, GET_SEED, SET_DAQ_LIST_MODE and the main function are defined if and only if the range the code accesses lies in the address space, the length is not zero and so on; DAQ commands and events are defined while the tables hold a configuration and the command addresses part of it; codes below 0xC7 and frames longer than the receive buffer are never defined while connected; a run that keeps to the rules is defined to its end.", "quantifier": "all configurations, reachable states, environments, frames, events and runs of any length", "why_tests_cant": "Undefined behaviour shows only for the parameters that trigger it; tests cannot enumerate parameters, states and histories, and a passing test does not show that no bad access took place.", "anchors": ["src/xcp.c:80-129", "src/xcp.c:706-718", "src/xcp.c:871-973", "src/xcp.c:1140-1202", "src/xcp.c:1238-1343", "src/xcp.c:1366-1488", "src/xcp.c:1512-1849", "src/xcp.c:2121-2148", "src/xcp_daq.c:183-258", "src/xcp_daq.c:487-554"]}
{"id": "C87", "title": "Predefined DAQ entries cannot be changed", "statement": "In a build with predefined DAQ lists, no sequence of commands and calls changes an ODT entry; WRITE_DAQ and WRITE_DAQ_MULTIPLE are refused with ERR_WRITE_PROTECTED.", "quantifier": "all tables, configurations and runs of any length", "why_tests_cant": "a test sends some commands; the claim is about all of them, in any order", "anchors": ["src/xcp.c:1512-1640", "src/xcp_daq.c:282-300", "src/xcp_daq.c:320-420"]}
{"id": "C88", "title": "An event samples the assigned predefined list", "statement": "While measurement runs, an event emits one frame per ODT of the list assigned to it, with the current values of its entries, carrying a time stamp if this list asks for one. Lists that are not started and events that are not assigned emit nothing.", "quantifier": "all tables, reachable states, memory contents and events", "why_tests_cant": "depends on the tables, which users supply, and on all states", "anchors": ["src/xcp_daq.c:487-554", "src/xcp_daq.c:337-470"]}
{"id": "C89", "title": "Mode commands of predefined lists", "statement": "SET_DAQ_LIST_MODE, START_STOP_DAQ_LIST and START_STOP_SYNCH change the modes of exactly the lists they name (or that are selected), refuse lists that do not exist, and event assignments end with the session.", "quantifier": "all tables, list numbers, modes and reachable states", "why_tests_cant": "what must not change are all the other lists", "anchors": ["src/xcp.c:1642-1760", "src/xcp_daq.c:300-380"]}
{"id": "C90", "title": "Information about predefined lists", "statement": "GET_DAQ_PROCESSOR_INFO and GET_DAQ_LIST_INFO describe the predefined tables: number of lists, ODTs and the maximum number of entries; lists that do not exist are refused.", "quantifier": "all tables and list numbers", "why_tests_cant": "the tables are supplied by the user of the library", "anchors": ["src/xcp.c:1762-1849", "src/xcp_daq.c:566-582"]}
{"id": "C91", "title": "Paced CAN frames are executed once each, in order (Arduino)", "statement": "If every frame is followed by enough steps of the main loop before the next interrupt, each frame is executed exactly once, in the order of arrival, with its own bytes, and calls of the application in between see the same slave as with any other transport layer.", "quantifier": "all sequences of frames and calls, all contents, all environments", "why_tests_cant": "whether bytes of frames meet depends on all contents and lengths; schedules cannot be enumerated", "anchors": ["src/tl/can/arduino_can.cpp:50-55", "src/tl/can/arduino_can.cpp:123-171", "src/xcp_util.c:33-44"]}
{"id": "C92", "title": "No CAN frame is lost, repeated or mixed with another (Arduino)", "statement": "A frame that arrives by interrupt while the previous one is being handled neither destroys that one nor is executed twice.", "quantifier": "every pair of frames and every point of the main loop at which the second interrupt may strike", "why_tests_cant": "the interrupt would have to be placed at every single machine step, for all frames", "anchors": ["src/tl/can/arduino_can.cpp:50-55", "src/tl/can/arduino_can.cpp:123-171"]}
{"id": "C93", "title": "Only data frames addressed to the slave are executed (Arduino)", "statement": "Frames with other identifiers, remote frames, empty and overlong frames have no effect on the slave.", "quantifier": "all identifiers, lengths and states", "why_tests_cant": "there are 2^29 identifiers and arbitrarily many states", "anchors": ["src/tl/can/arduino_can.cpp:132-171", "src/xcp_util.c:33-44"]}
{"id": "C94", "title": "Every frame received through the Windows completion port is executed once", "statement": "However the bytes of a stream are cut into completions, each frame in it is executed exactly once, and the answers go to the peer that sent it.", "quantifier": "all sequences of frames, all cuts, all states", "why_tests_cant": "the cuts depend on timing and on the network", "anchors": ["src/tl/eth/wineth_iocp.c:352-405", "src/tl/eth/wineth_iocp.c:474-494"]}
{"id": "C95", "title": "The session belongs to the master that connected (Windows, UDP)", "statement": "While a master is connected, datagrams of other peers are not executed, and all frames go to that master.", "quantifier": "all peers, datagrams and states, all operations that send frames", "why_tests_cant": "needs a second, uninvited peer at any time", "anchors": ["src/tl/eth/wineth_iocp.c:293-332", "src/tl/eth/wineth_iocp.c:459-494"]}
{"id": "C96", "title": "The session ends with the connection (Windows, TCP)", "statement": "When the peer closes the connection, protection is restored, measurement stops, and the slave is disconnected: the next peer has to CONNECT before its commands are executed.", "quantifier": "all reachable states, all following commands", "why_tests_cant": "what remains of a session shows only in later commands, of which there are arbitrarily many", "anchors": ["src/tl/eth/wineth_iocp.c:378-387", "src/tl/eth/wineth_iocp.c:256-291", "src/xcp.c:698-704"]}
{"id": "C97", "title": "The acceptance filter passes what the slave must hear (Kvaser)", "statement": "The filter that is computed from the inbound and the broadcast identifier passes both, and exactly those identifiers that agree with both in all bits in which these agree.", "quantifier": "all pairs of standard and extended identifiers, all received identifiers", "why_tests_cant": "there are 2^58 pairs of identifiers, each with 2^29 frames", "anchors": ["src/tl/can/kvaser.c:238-262"]}
{"id": "C98", "title": "Only data frames addressed to the slave are executed (Kvaser)", "statement": "Exactly the data frames with the configured identifier (and, if configured, full length) are executed; all others have no effect.", "quantifier": "all identifiers, flags, contents and states", "why_tests_cant": "there are 2^29 identifiers, many combinations of flags and arbitrarily many states", "anchors": ["src/tl/can/kvaser.c:81-91", "src/tl/can/kvaser.c:110-140"]}
{"id": "C99", "title": "Every frame of the slave is transmitted, and the lock released (Kvaser)", "statement": "XcpTl_Send transmits every frame with the configured identifier and its own bytes, and releases the lock of the transport layer.", "quantifier": "all runs of the slave, all configurations and frames", "why_tests_cant": "a lock that is not released shows only when another thread sends", "anchors": ["src/tl/can/kvaser.c:264-284"]}
{"id": "C100", "title": "Responses and DAQ frames sent by two threads do not disturb each other", "statement": "When one thread sends responses and another DAQ frames, every frame arrives with its own payload, in order, and the frame counters on the wire count up without gaps or repetitions.", "quantifier": "all schedules of the two threads, all payloads, all states", "why_tests_cant": "the schedule cannot be chosen by a test, and there are exponentially many", "anchors": ["src/xcp.c:732-790", "src/xcp_daq.c:590-620", "src/tl/eth/linuxeth.c:122-139", "src/hw/threads.c:101-132"]}
{"id": "C101", "title": "A command during a block upload does not damage the block", "statement": "A command that arrives while the main function sends the frames of a block is answered, and every frame of the block is sent.", "quantifier": "all schedules, all blocks and states", "why_tests_cant": "depends on the point at which the command arrives", "anchors": ["src/xcp.c:808-856", "src/xcp.c:871-911", "src/hw/threads.c:101-132"]}
{"id": "C102", "title": "UPLOAD sends the requested bytes once, though the main function runs concurrently", "statement": "An UPLOAD of up to MAX_CTO - 1 bytes is answered by one frame with the bytes at the MTA; the MTA advances by the requested length and no transfer remains active.", "quantifier": "all schedules, lengths and states", "why_tests_cant": "depends on the point at which the main function looks at the transfer", "anchors": ["src/xcp.c:871-937", "src/hw/threads.c:101-132"]}
{"id": "C103", "title": "The DAQ queue works between one sampling and one transmitting thread", "statement": "Frames leave the queue unaltered in the order in which they were accepted, none is lost without the overload being recorded, and no slot outside of the array is accessed.", "quantifier": "all schedules, all sequences of frames, all queue sizes", "why_tests_cant": "the schedule cannot be chosen by a test; an overrun by one slot need not show", "anchors": ["src/xcp_daq.c:708-757", "src/xcp_daq.c:142"]}
{"id": "C104", "title": "The DAQ queue works with several sampling threads", "statement": "When events are signalled by two threads, every frame the queue accepts leaves it unaltered.", "quantifier": "all schedules, all frames", "why_tests_cant": "the schedule cannot be chosen by a test", "anchors": ["src/xcp_daq.c:720-740"]}
{"id": "C105", "title": "FlsEmu_AllocatedSize rounds the page size up to the granularity of the system", "statement": "FlsEmu_AllocatedSize returns the least multiple of the allocation granularity that is not less than the page size of the segment.", "quantifier": "all granularities and page sizes", "why_tests_cant": "the example pages happen not to exceed the granularity of one of the systems", "anchors": ["flsemu/common.c:255-273"]}
{"id": "C106", "title": "On Windows, mapped addresses show the page demanded", "statement": "The pointer FlsEmu_MemoryMapper returns on Windows shows the byte at the given offset of the page given by the address extension, wherever the system places views and whatever malloc() returns.", "quantifier": "all segments, sequences of calls, placements of views and initial contents of the array", "why_tests_cant": "placement of views and contents of fresh memory cannot be chosen by a test", "anchors": ["flsemu/win/flsemu.c:125-169", "flsemu/common.c:229-253"]}
{"id": "C107", "title": "The flash emulation can be shut down", "statement": "FlsEmu_DeInit after FlsEmu_Init closes all segments without undefined behaviour.", "quantifier": "all configurations", "why_tests_cant": "depends on files and mappings; a test sees a crash of one configuration only", "anchors": ["flsemu/common.c:72-149", "flsemu/posix/flsemu.c:63-77", "flsemu/win/flsemu.c:77-88"]}
{"id": "C108", "title": "Memory commands of the example application reach the emulated flash", "statement": "With the address mapper, Xcp_CopyMemory reads and writes exactly the bytes of the page and segment addressed, leaves all other bytes alone, and accesses no address the mapper declares invalid.", "quantifier": "all segments, sequences of calls, addresses, extensions and lengths", "why_tests_cant": "the effect depends on all earlier calls of the mapper", "anchors": ["src/xcp.c:2121-2143", "examples/xcpsim/app_config.c:128-130", "flsemu/common.c:229-253", "src/xcp_util.c:33-44"]}
{"id": "C109", "title": "A measurement can be set up and run for every configuration", "statement": "For every configuration of DAQ lists, ODTs and entries that fits in the pool, every assignment of events to lists and every earlier state of the session, the sequence FREE_DAQ, ALLOC_DAQ, ALLOC_ODT, ALLOC_ODT_ENTRY, SET_DAQ_PTR, WRITE_DAQ, SET_DAQ_LIST_MODE, START_STOP_DAQ_LIST, START_STOP_SYNCH is answered positively throughout, and from then on every event makes the slave send exactly the configured frames.", "quantifier": "all configurations, assignments, earlier histories, series of events, memory contents", "why_tests_cant": "the space of configurations is unbounded, and each depends on what was configured before", "anchors": ["src/xcp.c:1560-1960", "src/xcp_daq.c:180-757"]}
{"id": "C110", "title": "Over TCP, peers are served one after the other and each gets exactly its own answers", "statement": "Peers connect over TCP one after the other, send frames, in whatever portions the stream comes (whole headers), and close; the slave executes exactly these commands in this order and sends every answer, and nothing else, to the peer whose command it executes, as a stream that the peer can split into complete, consecutively numbered frames. Frames without contents are ignored. Part of it is false of the code: an empty frame from a peer without a session (before CONNECT, after DISCONNECT, after a wrong key) makes the slave wait for the next connection and never read from this one again.", "quantifier": "for all configurations, all sequences of peers, frames and portions, all reachable states", "why_tests_cant": "The code that reads, accepts and dispatches consists of nested loops around blocking calls; the number of ways in which a stream may be cut is unbounded.", "anchors": ["src/tl/eth/common.c:58-71", "src/tl/eth/common.c:143-215", "src/tl/eth/common.c:221-228", "src/xcp.c:698-704", "src/xcp.c:1206-1234"]}
{"id": "C111", "title": "Over TCP, frames are sent completely", "statement": "The bytes that the slave writes to the stream are the frames that it produces, complete and in order, whatever send() does. False of the code: the number of bytes that send() took is not looked at; if it is ever less than the frame has, the receiver cannot find the frames in the stream.", "quantifier": "for all reachable states, all commands, all numbers of bytes taken by each call of send()", "why_tests_cant": "Short sends happen when the peer or the network is slow, hardly in a test.", "anchors": ["src/tl/eth/linuxeth.c:120-138"]}
{"id": "C112", "title": "Over a serial line, each frame is one command, executed at its last byte", "statement": "When a client sends frames with complete commands over the serial transport layer, the slave answers and changes its memory and state exactly as if each command had been handed over in one piece at the moment its last byte is read, no matter how the bytes are spread over calls of XcpTl_MainFunction and which other operations of the program (Xcp_MainFunction, DAQ events, event packets, ...) come in between. A frame without contents has no effect.", "quantifier": "All reachable states, configurations, receive buffers of at least 12 bytes, frame sequences, placements of the bytes among calls and other operations.", "why_tests_cant": "Byte positions, idle calls and operations in between combine without bound; tests feed whole frames. The failing part needs a frame with length 0, which no well-behaved client sends.", "anchors": ["src/tl/sxi/xcp_tl.c:74-139", "src/xcp.c:945-973"]}
{"id": "C113", "title": "The statistics shown by the program", "statement": "Between two initialisations the system information shows under \"CROs send\" the number of frames handed to the transport layer, under \"CROs busy\" the number of commands answered ERR_CMD_BUSY, and under \"CTOs rec'd\" the number of other commands that arrived, each modulo 2^32; nothing else moves these numbers. Taken by their names the numbers are wrong: commands answered busy are not counted as received, samples, events and service requests are counted as command responses, and from 2^31 on the numbers shown are negative.", "quantifier": "for all configurations with statistics, all reachable states, all operation sequences", "why_tests_cant": "The counters are touched in four places by every operation; that no other path moves them, and what they say after 2^31 frames, is out of reach of a test.", "anchors": ["src/xcp.c:666-671", "src/xcp.c:750-755", "src/xcp.c:780-785", "src/xcp.c:945-973", "src/xcp.c:2250-2258", "src/hw/terminal.c:258-264"]}
{"id": "C114", "title": "Ethernet on POSIX: the command line says how the slave listens", "statement": "However -t, -u, -4, -6 and -p are spread over the words of the command line, the slave listens with the transport, IP version and last port named there, and with TCP, IPv4 and port 5555 where nothing is named; choosing transport or IP version twice ends the program with exit code 1, and -h, an unknown option or a missing port with 0. False of ports: the slave listens on the port modulo 2^16, on port 0 if the text is not a number, and always announces port 5555.", "quantifier": "for all command lines made of any number of option words, whether or not getopt passes over other words", "why_tests_cant": "There are unboundedly many command lines; a test tries the usual ones.", "anchors": ["src/hw/options.c:89-180", "src/tl/eth/linuxeth.c:81-95", "src/tl/eth/common.c:235-242"]}
{"id": "C115", "title": "SocketCAN: the interface named is the interface used", "statement": "The slave uses the interface named by the last -i, vcan0 if there is none, and CAN FD exactly if -f is given. False of long names: with 16 letters or more looking up the interface writes beyond its buffer, with 64 or more the option itself does.", "quantifier": "for all command lines made of -f, -i and other words", "why_tests_cant": "Tests use short names; an overflow need not show when it happens.", "anchors": ["src/hw/options.c:106-180", "src/tl/can/linux_socket_can.c:66-75", "inc/xcp.h:925-938"]}
{"id": "C116", "title": "Ethernet on Windows: the last switch wins", "statement": "On Windows the IP version is the one named by the last of the switches 4 and 6, the transport the one named by the last of u and t, IPv4 and TCP by default. False of two documented forms: a port is ignored, and of several letters in one word only the first counts.", "quantifier": "for all command lines", "why_tests_cant": "There are unboundedly many command lines.", "anchors": ["src/hw/options.c:48-86", "src/tl/eth/wineth.c:87-115"]}
{"id": "C117", "title": "Over TCP, a session belongs to one peer", "statement": "From its CONNECT on, all frames of the slave go to the peer that connected, whoever else connects to the port meanwhile and whatever commands and other operations follow, until that peer disconnects, presents a wrong key or leaves. False before CONNECT: the next peer to connect replaces the one before, which is never served again.", "quantifier": "for all states, all sequences of events", "why_tests_cant": "The order in which peers arrive and commands, events and samples are sent is unbounded.", "anchors": ["src/tl/eth/common.c:190-228", "src/tl/eth/linuxeth.c:120-138"]}
{"id": "C118", "title": "The displayed DAQ configuration is the requested one", "statement": "XcpDaq_PrintDAQDetails lists, for a master that allocates each list's ODTs and each ODT's entries once, exactly the requested DAQ lists, ODTs and entries in order, with their numbers, addresses, sizes, first packet identifiers and the bytes per sample, without undefined behaviour; the text determines the configuration; XcpDaq_Info shows the number of allocated entities and whether a measurement runs. Refuted for the mode words: all lists are shown with the same words, whichever of them were selected, started or configured.", "quantifier": "all configurations with dynamic lists and pools below 65536 entities, all histories since power-on, all DAQ trees", "why_tests_cant": "The display walks a pool in which lists, ODTs and entries are interleaved in allocation order; only an invariant over all command histories shows that every index it follows exists and belongs to the right parent.", "anchors": ["src/hw/terminal.c:304-367 XcpDaq_PrintDAQDetails", "src/hw/terminal.c:369-404 XcpDaq_Info", "src/xcp_daq.c:309-378 XcpDaq_GetOdtEntry, XcpDaq_GetListConfiguration, XcpDaq_GetListState", "src/xcp_daq.c:660-678 XcpDaq_GetFirstPid"]}
{"id": "C119", "title": "The slave behaves like a reference slave", "statement": "For every list of requests for which a reference slave defines the replies - connecting and disconnecting, status, synchronisation, identification, seed and key, memory transfer address, upload and download in all forms, changing bits, checksums computed at once, clock, allocation, DAQ pointer and entries, list modes, start and stop, events, event and resolution information, programming, CAN identifiers, event and service request packets of the application, unknown commands and the errors for locked resources, wrong sequence, exhausted memory and running measurements - the slave sends exactly the replies of the reference, in order, and nothing else, without undefined behaviour. The reference knows only the session, protected resources, memory and the measurement tree; it has no buffers, handler tables, entity pools or queues. Requests determine the replies of the reference. After a session which the reference does not describe, a DISCONNECT makes the two agree again.", "quantifier": "all configurations with CAN frames of eight bytes where DLC is required and pools below 65536 entities, all memory contents, all answers of hooks, all lists of requests of any length", "why_tests_cant": "Every command depends on what all earlier ones left in the session, the pool and the buffers; only a simulation between the two machines covers every interleaving of commands and events.", "anchors": ["src/xcp.c:1-2363 all handlers and Xcp_DispatchCommand", "src/xcp_daq.c:1-757"]}
{"id": "C120", "title": "A TCP client talks to the reference slave", "statement": "Over TCP, peers that come one after the other and send commands in frames, cut into any portions that keep headers whole, get exactly the replies of the reference slave to their commands (C119), in order, and nothing else; each peer can split the bytes it gets into these replies, numbered one after the other; whoever waits behind a peer that stays gets nothing.", "quantifier": "all segmentations, all lists of peers and commands for which the reference defines replies, all configurations with a length field", "why_tests_cant": "Segmentation, peers and commands are unbounded; the property spans receiver, connection handling, command processor and transmission.", "anchors": ["src/tl/eth/common.c:58-228", "src/tl/eth/linuxeth.c:120-138", "src/xcp.c:945-973 Xcp_DispatchCommand", "src/xcp.c:732-761 Xcp_SendCto"]}
{"id": "C121", "title": "A serial master talks to the reference slave", "statement": "Over the serial line, frames that arrive byte by byte among idle calls and operations of the application get exactly the replies of the reference slave (C119), each when its last byte arrives, although the command buffer lies inside the receiver's buffer.", "quantifier": "all lists of complete commands, all interleavings with operations of the application and idle calls without time-out, all buffer sizes from 12 to 65536", "why_tests_cant": "Interleavings of bytes, time and application are unbounded; receiver and command processor share a buffer.", "anchors": ["src/tl/sxi/xcp_tl.c:75-185", "src/tl/xcp_tl_timeout.c:1-72", "src/xcp.c:945-973 Xcp_DispatchCommand"]}
{"id": "C122", "title": "However a TCP peer leaves, the next one is served", "statement": "Peers connect one after the other over TCP. Each sends any number of frames and then closes the connection, or the connection is reset, or the peer disappears in the middle of the header or of the contents of another frame. Every frame that arrived completely is executed and answered, to the peer that sent it; the incomplete frame has no effect; and the next peer is accepted and served in the same way.", "quantifier": "all configurations, sequences of peers, frames, portions and points at which the connection breaks", "why_tests_cant": "Where a stream breaks off relative to frames and portions has unboundedly many combinations, and a sequence of broken connections needs an inductive argument.", "anchors": ["src/tl/eth/common.c:58-71", "src/tl/eth/common.c:80-188", "src/tl/eth/common.c:190-228"]}
{"id": "C123", "title": "A frame that cannot be sent costs only the connection", "statement": "If send() fails while the slave answers over a stream (TCP, Bluetooth), the connection is closed, the commands of that peer are given up, and the slave goes on to serve the next peer. (Refuted: the program is terminated by SIGPIPE on Linux; in all other cases it continues to read from the closed socket and interprets a header that was never received.)", "quantifier": "all frames of the peer, every position of the frame that cannot be sent", "why_tests_cant": "Failures of send() at every possible position cannot be provoked by a test; the consequence (uninitialised memory is interpreted) is not deterministic.", "anchors": ["src/tl/eth/linuxeth.c:120-138", "src/tl/eth/wineth.c:178-194", "src/tl/bt/winbt.c:124-132", "src/tl/eth/common.c:80-114", "src/hw/linux/hw.c:179-185"]}
{"id": "C124", "title": "Keys of the console", "statement": "Each key of the console (POSIX) has its effect: h, i and d, in either case, show the help, the system information and the DAQ configuration; q, Q and ESC leave the program; other keys do nothing. (Refuted for keys that arrive together: what read() delivers in one call is ignored as a whole unless it is exactly one byte; and the end of the input is not noticed.)", "quantifier": "all inputs, however split into calls of read()", "why_tests_cant": "How the terminal groups keys is timing dependent; a test with single keys never shows the loss.", "anchors": ["src/hw/terminal.c:171-186", "src/hw/terminal.c:188-213"]}
{"id": "C125", "title": "Quitting closes the program down in order", "statement": "After the user has quit, the program ends with the flash emulation, the hardware layer and the transport layer de-initialised, in this order, no thread of the slave running on them any more, and the terminal restored. (Refuted: with the usual disposition of SIGINT on POSIX the program kills itself before any of this, under every schedule; where it does close down, the threads are not stopped before.)", "quantifier": "all schedules of the four threads; Windows, POSIX with SIGINT default or ignored", "why_tests_cant": "The claim is about all interleavings of threads, signals and cancellation requests.", "anchors": ["src/hw/threads.c:101-116", "src/hw/threads.c:126-167", "examples/xcpsim/main.c:39-49", "src/tl/eth/common.c:59-66", "src/hw/terminal.c:150-160"]}
{"id": "C126", "title": "A master on SocketCAN talks to the reference slave", "statement": "On a CAN bus (Linux SocketCAN, classic or FD frames), commands in frames with the inbound or the broadcast identifier, padded with arbitrary bytes or not, get exactly the replies of the reference slave (C119), in order, in frames with the outbound identifier; frames with other standard identifiers and empty frames have no effect; no buffer is exceeded.", "quantifier": "all configurations whose MAX_CTO and MAX_DTO fit the frame, all identifiers, lists of complete commands, paddings, and interleavings with foreign frames and operations of the application", "why_tests_cant": "Padding, stale bytes in the receive buffer and foreign traffic are unbounded; the property spans acceptance filter, receiver, command processor and transmission.", "anchors": ["src/tl/can/linux_socket_can.c:118-123", "src/tl/can/linux_socket_can.c:131-167", "src/tl/can/linux_socket_can.c:201-218", "src/xcp.c:945-973 Xcp_DispatchCommand"]}
{"id": "C127", "title": "A master on a Kvaser interface talks to the reference slave", "statement": "With the Kvaser transport layer, commands in data frames with the inbound identifier (and of full length where it is demanded) get exactly the replies of the reference slave (C119), in order, with the outbound identifier; all other data frames have no effect on replies, although they are read into the buffer of the command; the transmit lock is never left held.", "quantifier": "all configurations with MAX_CTO and MAX_DTO up to 8, all identifiers, lists of complete commands, paddings, and interleavings with foreign frames and operations of the application", "why_tests_cant": "Foreign frames overwrite the receive buffer; that this is never visible is a statement about all traffic.", "anchors": ["src/tl/can/kvaser.c:81-140", "src/tl/can/kvaser.c:238-284", "src/xcp.c:945-973 Xcp_DispatchCommand"]}
{"id": "C128", "title": "A master talks to the reference slave on Windows", "statement": "With the Windows completion port, UDP or TCP, commands that arrive each in one completion get exactly the replies of the reference slave (C119), in order, sent to the master, whatever operations of the application and completions of transmissions lie in between.", "quantifier": "all configurations, lists of commands for which the reference defines the replies, headers, interleavings with the application and with completions of transmissions", "why_tests_cant": "Command lists and interleavings are unbounded; the property spans completion handling, connection handling and the command processor.", "anchors": ["src/tl/eth/wineth_iocp.c:256-332", "src/tl/eth/wineth_iocp.c:352-405", "src/tl/eth/wineth_iocp.c:455-490", "src/xcp.c:945-973 Xcp_DispatchCommand"]}
{"id": "C129", "title": "A master talks to the reference slave on an Arduino board", "statement": "CAN frames that arrive by interrupt, each after the previous one has been executed, padded or not, get exactly the replies of the reference slave (C119), in order, among operations of the application.", "quantifier": "all configurations, lists of complete commands, paddings, numbers of steps of the main loop between frames (at least those that one frame takes)", "why_tests_cant": "Interrupts at every point of the main loop and unbounded command lists.", "anchors": ["src/tl/can/arduino_can.cpp:123-171", "src/xcp_util.c:33-44", "src/xcp.c:945-973 Xcp_DispatchCommand"]}
{"id": "C130", "title": "With predefined lists, operations are defined exactly under stated rules", "statement": "In the build with predefined DAQ lists, DISCONNECT, UNLOCK, SET_DAQ_PTR, START_STOP_SYNCH, the information commands, requests for commands that are not built in and all commands that are harmless in the other build never lead to undefined behaviour; WRITE_DAQ and WRITE_DAQ_MULTIPLE are defined exactly if there is a list, SET_DAQ_LIST_MODE exactly if event and list exist, START_STOP_DAQ_LIST exactly if it does not select a missing list, GET_DAQ_LIST_INFO exactly if the list exists (each if it gets past the refusals); memory access, GET_SEED and the main function follow the rules of C86; codes below 0xC7 are never defined. A run in which each operation keeps to the rules is defined to its end.", "quantifier": "all configurations (up to 65535 entities), tables that describe lists, reachable states, frames with all parameters, environments, and runs of any length", "why_tests_cant": "Undefined behaviour does not show reliably in a test; both directions range over all parameters, tables and states.", "anchors": ["src/xcp.c:1512-1563 Xcp_SetDaqPtr_Res", "src/xcp.c:1566-1721 Xcp_WriteDaqMultiple_Res", "src/xcp.c:1733-1790 Xcp_GetDaqProcessorInfo_Res", "src/xcp_daq.c:330-378", "src/xcp_daq.c:447-467", "src/xcp_daq.c:487-554", "src/xcp.c:945-973 Xcp_DispatchCommand"]}
{"id": "C131", "title": "Blocks and background checksums behave as by a reference slave, whatever else goes on", "statement": "A reference slave extends that of C119 by tasks of several steps: an upload longer than a frame is sent in consecutive frames of successive bytes, one per call of the main function; a download longer than a frame is taken in consecutive frames, each stored at once and only the last acknowledged; a checksum of a large block is computed in parts, one per call of the main function, each over the bytes that are in memory at that moment, and answered with the last. Meanwhile every command is answered with ERR_CMD_BUSY and changes nothing (uploads, checksums), or ends the task and is served (downloads), while events, packets and assignments of the application take their usual effect. The slave sends exactly the reference's replies in its order, from power-up and from any state in which the two agree, and the reference's replies are determined by the requests.", "quantifier": "all configurations (with the sizes the protocol allows), hooks, contents of memory, and all interleavings of commands, main-function calls, events and assignments of any length for which the reference has rules", "why_tests_cant": "The interleavings of multi-step transfers with commands, events and changing memory are unbounded; tests try each transfer alone.", "anchors": ["src/xcp.c:706-719 Xcp_MainFunction", "src/xcp.c:871-937", "src/xcp.c:1238-1262 Xcp_Upload_Res", "src/xcp.c:1311-1364 Xcp_BuildChecksum_Res", "src/xcp.c:1366-1425"]}
{"id": "C132", "title": "On CAN, the transport layer has exactly the effect of the operations its traffic conveys", "statement": "Whatever arrives through the CAN transport layers - SocketCAN, Kvaser, Arduino - commands with all their parameters, padded or not, to the identifiers the slave listens to, among frames for others, calls of the main function, events, and calls of the application - the slave does exactly what the protocol layer does on the commands alone: it sends the same packets, in this order and each in one frame with the slave's identifier and frame format, it ends in the same state (but for the receive buffer), and it runs into undefined behaviour exactly where the protocol layer does, from any reachable state.", "quantifier": "all configurations whose packets fit a frame, identifiers and formats, reachable states, operations (every command, with all its parameters), padding, interleaved frames of others; Arduino: frames paced by the main loop", "why_tests_cant": "Bus traffic, its interleaving with other nodes and padding are unbounded; the effect compared is the whole state.", "anchors": ["src/tl/can/linux_socket_can.c:131-167", "src/tl/can/linux_socket_can.c:201-218", "src/tl/can/kvaser.c:81-140", "src/tl/can/kvaser.c:238-284", "src/tl/can/arduino_can.cpp", "src/xcp.c:945-973 Xcp_DispatchCommand"]}
{"id": "C133", "title": "Blocks and background checksums reach the master through every transport layer", "statement": "Behind SocketCAN, Kvaser, Arduino, a serial line (byte by byte), and a completion port (UDP and TCP), the slave behaves as the reference slave with block transfers and background checksums (C131): the master gets exactly the reference's replies in its order, in frames of the transport layer, and nothing else; with a completion port the completion of one part's transmission sends the next part of an upload, like a call of the main function.", "quantifier": "all configurations with the sizes the protocol allows, states related to the reference (serial, CAN) or power-up (completion port), identifiers, conveyed traffic, and all runs for which the reference has rules", "why_tests_cant": "Composes three layers over unbounded interleavings of multi-step transfers, noise and padding.", "anchors": ["src/tl/can/linux_socket_can.c:131-167", "src/tl/can/kvaser.c:238-284", "src/tl/can/arduino_can.cpp", "src/tl/sxi/xcp_tl.c:75-185", "src/tl/eth/wineth_iocp.c:352-405", "src/xcp.c:706-719 Xcp_MainFunction", "src/xcp.c:871-937"]}
{"id": "C134", "title": "An event sampled while commands are processed yields complete frames of current data", "statement": "XcpDaq_TriggerEvent called by one thread, with commands, main function calls, application calls and events to the master executed by another thread between any two of its accesses to shared data - as long as these are not the commands that start, stop or allocate, end the session, or another DAQ event: one frame is sent for each ODT of the event's list, in order, each with its absolute ODT number, the time stamp in the first one only, and all entries of its ODT, each byte as it was in memory at some moment of the run; the DAQ configuration is untouched; the event needs a limited number of accesses, none of them undefined; if the sampled addresses are not written meanwhile the frames are those of an uninterrupted event; without interruption the accesses are exactly the atomic event. Refuted for FREE_DAQ, which the slave accepts while it measures: at a bad moment the frame sent ends behind the first entry.", "quantifier": "all configurations, reachable measuring states, represented DAQ tables, events, environments, and all interleavings with operations of another thread", "why_tests_cant": "The interleavings of the sampling loops with commands are unbounded and depend on timing; no test can hit each of them.", "anchors": ["src/xcp_daq.c:487-554 XcpDaq_TriggerEvent", "src/xcp_daq.c:556-564 XcpDaq_CopyMemory", "src/xcp_daq.c:728-754", "src/xcp.c:945-973 Xcp_DispatchCommand"]}
{"id": "C135", "title": "No DAQ frame follows the acknowledged end of a measurement", "statement": "Once START_STOP_SYNCH (stop all) or DISCONNECT has been answered positively the slave sends no DAQ frame. Refuted: an event that is being sampled by another thread is completed; after stop all its frames can be sent behind the response, after DISCONNECT the beginning of one.", "quantifier": "all configurations, reachable measuring states and events, for each of them an interleaving is exhibited", "why_tests_cant": "Depends on the moment the command interrupts the event; tests run command and event one after the other.", "anchors": ["src/xcp_daq.c:487-554 XcpDaq_TriggerEvent", "src/xcp_daq.c:556-564 XcpDaq_CopyMemory"]}
{"id": "C136", "title": "A sampled variable holds a value it had at one moment", "statement": "The bytes of a variable of more than one byte in a DAQ frame are those of the variable at one moment. Refuted: the slave copies bytes without excluding the application; for every measured first entry and every new value the application assigns there is a moment at which the frame holds the first byte of the old value and the others of the new one.", "quantifier": "all configurations, reachable measuring states, events, old and new values", "why_tests_cant": "Depends on the moment of an assignment within a copy loop of a few instructions.", "anchors": ["src/xcp_daq.c:487-554 XcpDaq_TriggerEvent", "src/xcp_daq.c:556-564 XcpDaq_CopyMemory"]}
{"id": "C137", "title": "The one-file version has each header once, behind all it includes", "statement": "tools/amalgam8.py, run for any set of headers and sources, writes for each header that is not left out and each path a header includes in an include section exactly one piece: banner and the header's text outside of its include sections. Each piece comes behind the pieces of all headers it includes; then come the sources with text, in the order in which they were found. The script ends with an error and without opening the file exactly if the includes form a cycle; it ends with an error behind the banner of the first path in this order without text (left out, missing, or with nothing outside of include sections); otherwise the file is complete.", "quantifier": "all hosts, sets of headers with distinct paths, sources, texts, include graphs", "why_tests_cant": "a run shows one tree in the order one file system returns it; the claim is about all include graphs and orders", "anchors": ["tools/amalgam8.py:21-64", "tools/amalgam8.py:95-112", "inc/xcp.h:31-35"]}
{"id": "C138", "title": "The one-file version keeps the text of all files", "statement": "Every file divides in one way into text and include sections; a section that is not closed reaches to the end of the file. All text outside of the sections of all files that are not left out is in the file written, unchanged and in one piece per file. Expected further: no line of a section gets lost unless it is the include of a file in quotes, or empty. Refuted: a line added to a section that includes no file in quotes (an include in angle brackets, a condition, a definition) makes no difference to the result, whatever the other files are.", "quantifier": "all files, sections, lines, positions in a section, hosts", "why_tests_cant": "a line that vanishes shows only in a build of the result that needs the line", "anchors": ["tools/amalgam8.py:12-15", "tools/amalgam8.py:33-53"]}
{"id": "C139", "title": "The one-file version leaves the files of the stop lists out", "statement": "Files in the stop lists (hardware and transport layers of PC hosts, terminal, threads) have no influence on the file written. This holds of the files whose path, as the host spells it, is in the lists. The lists are written with backslashes. Refuted for hosts whose paths have slashes: there every file of the stop lists that has any text is in the file written, with all other ones.", "quantifier": "all hosts, trees whose paths have at least two parts, files of the stop lists", "why_tests_cant": "the maintainers run the script on one host; the result on that host is right", "anchors": ["tools/amalgam8.py:28-29", "tools/amalgam8.py:77-98"]}
{"id": "C140", "title": "A background checksum is right and all commands meanwhile are refused", "statement": "Once BUILD_CHECKSUM over a large block (at least two chunks) has set up its job, then for every interleaving of the thread that receives commands with the thread that calls Xcp_MainFunction: every command that arrives before the last part has been computed is answered by ERR_CMD_BUSY, nothing else is sent, and within a bounded number of steps of the main function's thread exactly one checksum response is sent, with the checksum of exactly the requested block; no read leaves the address space.", "quantifier": "all configurations (chunk size, method that can be continued, byte order, kind of lock), blocks, memory contents, command sequences and schedules", "why_tests_cant": "The threads of the slave are scheduled by the operating system; tests see a handful of interleavings, the claim is about all of them and about blocks of any size.", "anchors": ["src/xcp_checksum.c:338-388", "src/xcp.c:945-973", "src/xcp.c:1311-1343", "src/xcp.c:2223-2231", "src/hw/threads.c:101-132"]}
{"id": "C141", "title": "A background checksum covers the requested block only", "statement": "Whatever moment Xcp_MainFunction looks at the job while BUILD_CHECKSUM is setting it up, the checksum sent is that of the requested block. (Refuted: the state is set to running before address and size are written and the main function takes no lock, so for every block there is a schedule after which the chunk at the preceding job's address - address 0 for the first job - is summed up as well.)", "quantifier": "all blocks, memory contents, preceding jobs and schedules", "why_tests_cant": "The window is two assignments long; a test hits it by accident at best.", "anchors": ["src/xcp_checksum.c:330-350", "src/xcp_checksum.c:356-366", "src/hw/threads.c:125-131"]}
{"id": "C142", "title": "Every BUILD_CHECKSUM is answered", "statement": "A slave that is not busy answers BUILD_CHECKSUM over a large block, at once or when the job has ended. (Refuted: between Xcp_SetBusy(FALSE) and the end of the job a command is accepted but dropped, the master waits forever although the slave reports no error; and with the POSIX locks, whose mutexes are not recursive, the thread that receives commands waits for itself under every schedule, so that neither this nor any later command is answered.)", "quantifier": "all states, blocks, command sequences, schedules, and any number of further calls of the main function", "why_tests_cant": "The first needs a command in a window of a few instructions; the second is certain, but only shows with the threads and locks of the real platform.", "anchors": ["src/xcp_checksum.c:338-350", "src/xcp_checksum.c:378-387", "src/xcp.c:2223-2227", "src/hw/posix/hw.c:104-131", "src/hw/win/hw.c:178-190"]}
{"id": "C143", "title": "Repeated allocation replaces what was allocated before", "statement": "A second ALLOC_ODT_ENTRY for an ODT gives the ODT the newly requested entries in place of the old ones, and a second ALLOC_ODT for a list gives the list the newly requested ODTs or is refused; in either case all other lists and ODTs are unaffected and the tables stay well formed.", "quantifier": "every reachable state, configuration, list, ODT and number of entries, any number of repetitions", "why_tests_cant": "the damage shows only when a later command uses table slots that two objects share; which ones depends on the whole allocation history", "anchors": ["src/xcp_daq.c:208-232", "src/xcp_daq.c:234-260", "src/xcp_daq.c:447-468"]}
{"id": "C144", "title": "A measurement of predefined lists can be started, run and stopped", "statement": "In a build with predefined DAQ lists a master that assigns events to lists with SET_DAQ_LIST_MODE, selects the lists with START_STOP_DAQ_LIST and starts them with START_STOP_SYNCH gets the expected positive responses including the first identifier of every list; every following event then sends exactly the frames of its list, in order, with the memory contents of that time, time-stamped if that list's mode asks for it; after START_STOP_SYNCH 'stop all' no event sends anything. With one mode for all lists the dialogue and the frames are those of a build in which the master allocates the same lists itself.", "quantifier": "all tables, assignments, modes per list, byte orders, environments, series of events (as long as the queue has room, see C145) and states a measurement can start from", "why_tests_cant": "The claim is about whole sessions: each command and each event depends on what all earlier ones left in the tables, and lists, events and modes combine without bound.", "anchors": ["src/xcp.c:1603-1640", "src/xcp.c:1671-1700", "src/xcp.c:1701-1730", "src/xcp_daq.c:487-554"]}
{"id": "C145", "title": "Predefined lists of any size can be measured for any time", "statement": "In a build with predefined DAQ lists every event of a running measurement sends all frames of its list, however many the list has and however many frames were sent before. (Refuted: a first sample of more than four frames is cut off after four; and any event or measurement that needs a fifth slot since power-on, after at least one frame was sent, writes behind the queue.)", "quantifier": "all tables, assignments, modes, environments, series of events, and reachable states", "why_tests_cant": "Short tests with few frames pass; the write behind the array corrupts neighbouring data without being noticed.", "anchors": ["src/xcp_daq.c:487-554", "src/xcp_daq.c:604-640", "src/xcp_daq.c:720-745"]}
{"id": "C146", "title": "Every value of a command field can be sent", "statement": "Reading a two-byte field of a command (Xcp_GetWord) and a four-byte field (Xcp_GetDWord: addresses of SET_MTA, SHORT_UPLOAD, SHORT_DOWNLOAD, WRITE_DAQ, the sizes of BUILD_CHECKSUM and PROGRAM_CLEAR) is free of undefined arithmetic and gives the value of the field in the slave's byte order, whatever the bytes are.", "quantifier": "every content of the field, both byte orders, targets with int of 32 and of 16 bits", "why_tests_cant": "signed overflow is invisible to a test: the compiler of the test host may give the expected value, and another one, or another optimisation level, not", "anchors": ["src/xcp.c:2156-2176", "src/xcp.c:1266-1276"]}
{"id": "C147", "title": "Response fields are written right on every target", "statement": "The bytes stored by Xcp_SetWord and Xcp_SetDWord and those of XCP_LOBYTE, XCP_HIBYTE, XCP_LOWORD and XCP_HIWORD are those of the value in the slave's byte order, and no operation on the way is undefined.", "quantifier": "every value, both byte orders, targets with int of 32 and of 16 bits", "why_tests_cant": "2^32 values on several targets; the promotions differ between targets", "anchors": ["src/xcp.c:2182-2200", "inc/xcp_macros.h:53-68"]}
{"id": "C148", "title": "MODIFY_BITS means the same on every target", "statement": "The expression of MODIFY_BITS, evaluated with C's promotions and conversions, has the value the model of the slave gives it, and none exactly where the model says so; it reaches all 32 bits of the value on every target.", "quantifier": "every value, mask and shift, targets with int of 32 and of 16 bits", "why_tests_cant": "2^72 inputs; integer promotions depend on the target", "anchors": ["src/xcp.c:1471-1487"]}
{"id": "C149", "title": "Checksums are computed without undefined arithmetic", "statement": "Every step of the CRC methods - reflection, table index, shift, final XOR - is defined in C's arithmetic for every block, and the result is the CRC of the block.", "quantifier": "every block, every CRC method, targets with int of 32 and of 16 bits", "why_tests_cant": "the undefined shift shows only for half of all blocks and only to a sanitizer", "anchors": ["src/xcp_checksum.c:235-287"]}
{"id": "C150", "title": "Index arithmetic does not overflow", "statement": "The successor of a queue index, size and offsets of WRITE_DAQ_MULTIPLE, the count of bytes left in a block transfer and the length and counter fields of serial line and Ethernet are computed without overflow and equal the values the model uses.", "quantifier": "every value of the operands, targets with int of 32 and of 16 bits", "why_tests_cant": "operands are combined in int or unsigned int depending on the target", "anchors": ["src/xcp_daq.c:720-752", "src/xcp.c:1575-1592", "src/xcp.c:1415", "src/tl/sxi/xcp_tl.c:40", "src/tl/eth/common.c:111-112", "inc/xcp_macros.h:70-74"]}
{"id": "C151", "title": "The slave runs until it is told to quit (macOS)", "statement": "The process does not end by itself while it serves its master. Refuted: XcpHw_Init starts two timers for demonstration; once they have fired twenty times (3.6 s after the start) the process calls exit().", "quantifier": "every interleaving of timer ticks and cancellation handlers", "why_tests_cant": "the effect needs seconds of run time on one platform, and interleavings of two timers", "anchors": ["src/hw/macos/hw.c:93-96", "src/hw/macos/hw.c:108-122", "src/hw/macos/hw.c:124-164"]}
{"id": "C152", "title": "The clock matters only for GET_DAQ_CLOCK and time stamps", "statement": "Executing a command other than GET_DAQ_CLOCK, the main function, an event without time stamps or any other operation at another time makes no difference to frames, state or memory. So a platform whose clock has no value (macOS) executes them like any other; GET_DAQ_CLOCK is answered there with any four bytes.", "quantifier": "every configuration, state, operation, history and clock value", "why_tests_cant": "independence of an input is a statement about pairs of executions", "anchors": ["src/xcp.c:1855-1869", "src/xcp_daq.c:487-554", "src/hw/macos/hw.c:166-173"]}
{"id": "C153", "title": "Locks and condition are created once, used, and destroyed once (POSIX)", "statement": "Between initialisation and shutdown a lock is held exactly between acquiring and releasing it, and XcpHw_Deinit finds every object existing and free. The first holds; the second is refuted after any history: the condition variable is destroyed twice, the transmission mutex is never unlocked; and a second Xcp_Init creates objects that exist.", "quantifier": "every number of locks and every history of calls", "why_tests_cant": "use of destroyed objects usually goes unnoticed; all histories are meant", "anchors": ["src/hw/posix/hw.c:85-131", "src/hw/posix/hw.c:133-136"]}
{"id": "C154", "title": "Headers can be included in any order, from C and C++", "statement": "A C++ file that includes headers of the slave in any order is well formed. Refuted: with XCP_ENABLE_EXTERN_C_GUARDS on, its braces match only if xcp_config.h comes before everything that reads xcp.h (xcp.h first: a brace too many is closed); with the switch off, xcp_hw.h must not be the first to read xcp.h (a brace stays open). C files are not affected.", "quantifier": "every list of headers, configuration and transport", "why_tests_cant": "tests build a few files with one order and mostly as C; all orders are meant", "anchors": ["inc/xcp.h:54-64", "inc/xcp.h:1254-1258", "inc/xcp_hw.h:29-50"]}
{"id": "C155", "title": "XCP_ENABLE_EXTERN_C_GUARDS decides on the linkage", "statement": "With the switch on, guarded headers declare functions with C linkage, with the switch off they do not. The first holds where the braces match. Refuted otherwise: xcp_util.h and xcp_types.h always declare with C linkage, and xcp.h, included first, always without.", "quantifier": "every list of headers, configuration and transport", "why_tests_cant": "the outcome depends on which headers came before; all orders are meant", "anchors": ["inc/xcp_util.h:29-51", "inc/xcp_types.h:31-35", "inc/xcp.h:58-62"]}
{"id": "C156", "title": "A debug build prints and opens the tested functions", "statement": "XCP_BUILD_TYPE XCP_DEBUG_BUILD in xcp_config.h has the documented effect. Refuted: only files that include xcp_config.h before xcp_macros.h print; in all others the output is empty and XCP_STATIC is static. XcpUtl_Hexdump and XcpUtl_Itoa are compiled by xcp_util.c in no configuration, in the amalgamation exactly in debug builds.", "quantifier": "every list of headers, configuration and transport", "why_tests_cant": "absence of code in every configuration is not a matter of runs", "anchors": ["inc/xcp_macros.h:106-168", "src/xcp_util.c:27-29", "src/xcp_util.c:72-117"]}
{"id": "C157", "title": "All files of a build agree on the transport", "statement": "Every file is compiled for the transport named on the command line, and the files of other transports compile to nothing. Holds for tools/xcp_config.h if a transport is named. Refuted: if none is named, files including xcp_config.h first take the serial line; with examples/xcpsim/xcp_config.h those take CAN always and TP_SXI selects nothing; sxi/xcp_tl.c and arduino_can.cpp are compiled in every build, as they compare two undefined names.", "quantifier": "every command line, configuration and both orders of inclusion", "why_tests_cant": "needs all combinations of switches and include orders; a wrong choice compiles silently", "anchors": ["tools/xcp_config.h:169-220", "examples/xcpsim/xcp_config.h:164-204", "src/tl/sxi/xcp_tl.c:26-37", "src/tl/can/arduino_can.cpp:26-28"]}
{"id": "C158", "title": "What an accepted configuration guarantees", "statement": "inc/xcp.h accepts a configuration exactly if the documented conditions hold for the values written (sizes, CAN FD ranges, GET_SEED with UNLOCK, block mode with DOWNLOAD_NEXT, WRITE_DAQ_MULTIPLE not on classic CAN and only with MAX_CTO of at least 10, ...), and then the slave compiled has the properties the other claims start from.", "quantifier": "every assignment of values to the macros", "why_tests_cant": "a build tests one configuration; #error makes others untestable", "anchors": ["inc/xcp.h:66-251"]}
{"id": "C159", "title": "Accepted configurations can connect", "statement": "A slave whose configuration is accepted answers CONNECT. Refuted: except on CAN any XCP_MAX_CTO below 8 is accepted, and then every CONNECT after start-up writes beyond the transmit buffer.", "quantifier": "every accepted configuration, memory contents and CONNECT frame", "why_tests_cant": "tests use one buffer size; an overflow of a static array need not show", "anchors": ["inc/xcp.h:101-103", "inc/xcp.h:233-235", "src/xcp.c:1000-1042", "src/xcp.c:808-856"]}
{"id": "C160", "title": "Every configured event can be measured", "statement": "XCP_DAQ_MAX_EVENT_CHANNEL events can be triggered. Refuted: every number is accepted, but triggering an event whose number is not below that number modulo 256 does nothing in any state; with 256 events none works. GET_DAQ_PROCESSOR_INFO announces all of them all the same, and GET_DAQ_EVENT_INFO denies those beyond.", "quantifier": "every accepted configuration, state and event", "why_tests_cant": "tests have few events; the truncation shows from 256 on", "anchors": ["inc/xcp.h:182-184", "src/xcp_daq.c:487-554", "src/xcp.c:1733-1754", "src/xcp.c:1895-1927"]}
{"id": "C161", "title": "Every unit of time stamps can be configured", "statement": "The hardware layers compile with every XCP_DAQ_TIMESTAMP_UNIT there is code for, and the clock then counts in that unit. Refuted for Linux: 10 us (a malformed macro), 100 ms and 1 s (a misspelt macro) do not compile. On Windows the units from 1 us to 1 s compile and, where they are a whole number of ticks, are right; on Arduino boards 1 us and 1 ms.", "quantifier": "every value of XCP_DAQ_TIMESTAMP_UNIT, every time", "why_tests_cant": "a test is compiled for one unit and one platform", "anchors": ["src/hw/linux/hw.c:57-91", "src/hw/win/hw.c:53-79", "src/hw/arduino/hw.cpp:48-56", "inc/xcp.h:1102-1114"]}
{"id": "C162", "title": "A master reads the time right", "statement": "The value of GET_DAQ_CLOCK, in the unit announced by GET_DAQ_RESOLUTION_INFO, is the time since the start. Refuted: 1 us is announced whatever the unit, so it is right only on Windows and Arduino boards configured for 1 us; with another unit it is wrong from the first microsecond, on Linux with every unit from the first nanosecond.", "quantifier": "every reachable state, unit and time", "why_tests_cant": "tests compare the answer bytes with constants and use a simulated clock", "anchors": ["src/xcp.c:1875-1890", "src/hw/linux/hw.c:271-287", "src/hw/win/hw.c:133-156", "src/hw/arduino/hw.cpp:48-56"]}
{"id": "C163", "title": "The clocks of Linux start at zero and do not fall back", "statement": "After XcpHw_Init the clocks count from zero. Refuted: the starting time is read from CLOCK_MONOTONIC, all later times from CLOCK_MONOTONIC_RAW; if the former is ahead when the slave starts, the clock in milliseconds begins near 2^32 and falls back to zero later, if it is behind, all readings are too large. Proved if both show the same at the start.", "quantifier": "every start, every later time, every drift between the clocks", "why_tests_cant": "the clocks drift apart over the uptime of a machine; on a freshly started machine they agree", "anchors": ["src/hw/linux/hw.c:193-195", "src/hw/linux/hw.c:256-269", "src/hw/linux/hw.c:271-293"]}
{"id": "C164", "title": "The timer signal does not disturb the slave", "statement": "The slave on Linux, which arms a timer that sends a signal every second, receives commands as if there were no signal. Refuted: the handler is installed without SA_RESTART and no caller looks for EINTR. A signal that reaches the waiting thread of the transport layer makes the next bytes of a TCP or UDP master overwrite the stack behind the header buffer; inside of a frame a command is executed that nobody sent, or the contents are written outside of the receive buffer; in accept() the slave evaluates a header never received; with SocketCAN the program is aborted. Without signals the slave is that of C110, C122 and the CAN properties.", "quantifier": "every sequence of frames and portions, every place of a signal, every number of signals in a pause", "why_tests_cant": "whether and where a signal interrupts a call depends on time and on the scheduler; tests replace the sockets and do not arm the timer", "anchors": ["src/hw/linux/hw.c:97", "src/hw/linux/hw.c:172", "src/hw/linux/hw.c:202-239", "src/tl/eth/common.c:67-70", "src/tl/eth/common.c:80-141", "src/tl/eth/common.c:190-215", "src/tl/can/linux_socket_can.c:51-55", "src/tl/can/linux_socket_can.c:143-156"]}
{"id": "C165", "title": "With UDP, frames are sent to the address of the master", "statement": "On Linux with UDP the frames for a master are sent to its address and port. Refuted: recvfrom() is told that there is room for as many bytes of the address as a pointer has, in a variable of two bytes that it reads as four. For IPv4 and 64-bit machines that is just enough (proved); for IPv6, and for IPv4 on 32-bit machines, if the two bytes next to the variable are zero, all frames go to the unspecified address, i.e. to the machine of the slave, and no other master ever gets an answer.", "quantifier": "every history of frames and operations, every address, everything next to the variable", "why_tests_cant": "tests have no sockets; a trial on one machine with IPv4 works, and one over the loopback device with IPv6 too", "anchors": ["src/tl/eth/common.c:85-92", "src/tl/eth/common.c:120-127", "src/tl/eth/common.c:221-224", "src/tl/eth/linuxeth.c:79", "src/tl/eth/linuxeth.c:120-129", "inc/xcp_eth.h:58-66"]}
