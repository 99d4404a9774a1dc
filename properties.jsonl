{"id": "C01", "title": "CircularBuffer is a bounded FIFO", "statement": "As long as the caller never does an element push() on a full buffer nor an element pull() on an empty one, every sequence of bulk/element push, bulk/element pull, read() (peek), flush() and the size queries returns exactly what a bounded FIFO queue of the same capacity would return: elements come out once, in insertion order, unchanged.", "quantifier": "every capacity, every initial memory content, every finite sequence of operations with any arguments, every element type", "why_tests_cant": "wrap-around positions of the two heads and the mix of bulk and element operations give unboundedly many histories; tests sample a few", "anchors": ["cicada/circularbuffer.h:CircularBuffer::push/pull/read/flush"]}
{"id": "C02", "title": "Bulk push/pull transfer exactly min(request, room)", "statement": "push(data,n) stores exactly the first min(n, spaceAvailable()) elements of data and returns that count; pull(data,n) delivers exactly the min(n, bytesAvailable()) oldest elements and returns that count; nothing else in the buffer changes.", "quantifier": "every buffer state reachable by any history (even after overruns), every data array and every request size including 0 and sizes far above capacity", "why_tests_cant": "request sizes and fill levels are unbounded", "anchors": ["cicada/circularbuffer.h:CircularBuffer::push(const T*,Size)", "cicada/circularbuffer.h:CircularBuffer::pull(T*,Size)"]}
{"id": "C03", "title": "CircularBuffer accounting and memory safety", "statement": "For a buffer of at least one element, no sequence of operations - including element pushes on a full buffer and pulls on an empty one - ever touches memory outside the user supplied array, bytesAvailable()+spaceAvailable()==size() always, and isEmpty()/isFull() agree with the counts.", "quantifier": "every operation sequence whatsoever, every capacity >= 1", "why_tests_cant": "an out-of-range head only shows for particular histories; tests do not observe stray accesses", "anchors": ["cicada/circularbuffer.h:CircularBuffer"]}
{"id": "C04", "title": "Overrunning element push loses only the oldest element", "statement": "push(T) on a full buffer overwrites an existing element; what a user expects is that the oldest is replaced and the remaining ones still come out in order followed by the new one.", "quantifier": "every full buffer and every pushed element, and all later operations", "why_tests_cant": "needs the exact order of all later pulls after an overrun", "anchors": ["cicada/circularbuffer.h:CircularBuffer::push(T)"]}
{"id": "C05", "title": "Pulling from an empty buffer is harmless", "statement": "pull() on an empty buffer returns old data (documented) but later pushes and pulls still behave as a FIFO.", "quantifier": "every buffer history containing an element pull on an empty buffer", "why_tests_cant": "effect only shows in later operations", "anchors": ["cicada/circularbuffer.h:CircularBuffer::pull()"]}
{"id": "C06", "title": "Line count equals the number of complete lines buffered", "statement": "numBufferedLines() equals the number of '\\n' characters currently stored, for every history without element overrun/underrun.", "quantifier": "every history of push, pull, readLine, flush on a LineCircularBuffer; every capacity below 65536", "why_tests_cant": "the counter is maintained incrementally; drift appears only on particular histories", "anchors": ["cicada/linecircularbuffer.h:LineCircularBuffer"]}
{"id": "C07", "title": "LineCircularBuffer::readLine removes exactly one line", "statement": "readLine(data,n) removes everything up to and including the first '\\n' (or everything if there is none), stores the first min(n, removed) characters of it and returns that count.", "quantifier": "every buffer content and every n including 0", "why_tests_cant": "line lengths versus n are unbounded", "anchors": ["cicada/linecircularbuffer.h:LineCircularBuffer::readLine"]}
{"id": "C08", "title": "Line counter never lies about lines being available", "statement": "numBufferedLines() > 0 exactly when a complete line is buffered, for every buffer size and history.", "quantifier": "every capacity (Size is 64 bit) and every history", "why_tests_cant": "the counter is 16 bit and is not adjusted on overruns; needs > 65535 lines or an overrun", "anchors": ["cicada/linecircularbuffer.h:_bufferedLines"]}
{"id": "C09", "title": "Serial receive path loses, duplicates and reorders nothing", "statement": "Whatever the interleaving of interrupt-time transfers with main-program reads, the bytes returned by the read functions followed by the bytes still buffered are exactly the bytes the transfer function accepted from the wire, in order.", "quantifier": "every interleaving of interrupt transfers between any two critical sections of read/readLine/bytesAvailable/canReadLine calls, every byte stream, every buffer size", "why_tests_cant": "interrupt schedules cannot be enumerated by tests", "anchors": ["cicada/bufferedserial.cpp:read/readLine/transferToAndFromBuffer", "cicada/irq.h"]}
{"id": "C10", "title": "Serial transmit path loses, duplicates and reorders nothing", "statement": "Whatever the interleaving, the bytes handed to the wire followed by the bytes still buffered are exactly the bytes accepted by write(), in order; a byte refused by the hardware stays in the buffer.", "quantifier": "every interleaving of interrupt transfers with bulk and string writes, every pattern of hardware acceptance", "why_tests_cant": "interrupt schedules and hardware busy patterns cannot be enumerated", "anchors": ["cicada/bufferedserial.cpp:write/copyToBuffer/transferToAndFromBuffer"]}
{"id": "C11", "title": "Bulk serial read returns exactly what was available", "statement": "read(data,n) returns min(n, bytes available at the call) bytes, the oldest received ones, even if bytes keep arriving during the call.", "quantifier": "every n, every buffer content, every interrupt schedule during the call", "why_tests_cant": "needs all schedules", "anchors": ["cicada/bufferedserial.cpp:BufferedSerial::read(uint8_t*,Size)"]}
{"id": "C12", "title": "Serial writes accept exactly what fits", "statement": "write(data,n) accepts the first min(n, spaceAvailable()) bytes and returns that count; write(str) accepts the first min(strlen, spaceAvailable()) characters without the terminator.", "quantifier": "every string/data, every fill level, every interrupt schedule during the call", "why_tests_cant": "unbounded sizes and schedules", "anchors": ["cicada/bufferedserial.cpp:BufferedSerial::write"]}
{"id": "C13", "title": "Serial readLine strips the line end", "statement": "readLine(data,n) returns the characters before the next '\\n', NUL-terminated, the '\\n' itself not being included (documented in bufferedserial.h).", "quantifier": "every line and every n", "why_tests_cant": "the documented contract is about all lines; the shipped test compares with a '\\n' included", "anchors": ["cicada/bufferedserial.h:readLine", "cicada/bufferedserial.cpp:BufferedSerial::readLine"]}
{"id": "C14", "title": "Serial readLine is bounded and consumes one line", "statement": "readLine(data,n) with n>0 writes at most n bytes including a terminating NUL, returns the number of characters before the NUL, and consumes input up to and including the first '\\n' whatever n is.", "quantifier": "every buffered content, every n, every interrupt schedule", "why_tests_cant": "sizes and schedules unbounded", "anchors": ["cicada/bufferedserial.cpp:BufferedSerial::readLine"]}
{"id": "C15", "title": "canReadLine is exact", "statement": "canReadLine() is true exactly when a '\\n' is in the receive buffer.", "quantifier": "every history of serial transfers, reads, readLines and flushes with a receive buffer below 65536 bytes and no element read on an empty buffer", "why_tests_cant": "incremental 16 bit counter", "anchors": ["cicada/bufferedserial.cpp:BufferedSerial::canReadLine"]}
{"id": "C16", "title": "Receive overflow drops only the newest byte", "statement": "When the receive buffer is full an arriving byte is discarded and everything already buffered stays intact and in order.", "quantifier": "every full buffer and every arriving stream", "why_tests_cant": "depends on the fill level at every arrival", "anchors": ["cicada/bufferedserial.cpp:BufferedSerial::transferToAndFromBuffer"]}
{"id": "C17", "title": "Scheduler is round robin and starvation free", "statement": "runTask() examines exactly one task per call, in list order, cyclically; in any n consecutive calls with n tasks every task is examined exactly once, whatever the tasks do to their delays.", "quantifier": "every task list length, every behaviour of the task bodies, every tick sequence, every number of calls", "why_tests_cant": "unbounded executions", "anchors": ["cicada/scheduler.cpp:Scheduler::runTask"]}
{"id": "C18", "title": "Scheduler due rule is exact across tick wrap", "statement": "An examined task runs iff its delay is 0 or at least delay ticks passed since its last run; it is never run early and never skipped when due, also when the 32 bit tick counter wraps, provided fewer than 2^32 ms passed; lastRun() is the tick of the last run.", "quantifier": "every tick value, every delay, every elapsed time below 2^32", "why_tests_cant": "wrap happens after 49 days", "anchors": ["cicada/scheduler.cpp:Scheduler::runTask", "cicada/task.h:Task"]}
{"id": "C19", "title": "A requested delay is a minimum delay", "statement": "After E_REENTER_DELAY(d)/setDelay(d), the task does not run again before d ms have passed.", "quantifier": "every d a caller can write", "why_tests_cant": "delays above 65535 are silently truncated to 16 bit; the argument range is unbounded", "anchors": ["cicada/task.h:Task::setDelay", "cicada/task.h:E_REENTER_DELAY"]}
{"id": "C20", "title": "Re-entrant task macros resume where they left", "statement": "A task body written with the E_REENTER macros executes its statements in program order exactly once, continuing at the yield point it returned from, as if it were a blocking thread; a finished body does nothing.", "quantifier": "every program built from the macros, every sequence of run() calls, every condition/timeout outcome", "why_tests_cant": "unbounded programs and schedules", "anchors": ["cicada/task.h:E_BEGIN_TASK/E_REENTER_*/E_END_TASK"]}
{"id": "C21", "title": "Two instances of one task class run independently", "statement": "Each task object has its own resume point.", "quantifier": "every task class and any two instances", "why_tests_cant": "needs two instances interleaved; entrypoint is a function-local static", "anchors": ["cicada/task.h:E_BEGIN_TASK"]}
{"id": "C22", "title": "Macro entry points never collide", "statement": "Every task body resumes correctly wherever it is in the translation unit.", "quantifier": "every value of __COUNTER__ at the task's definition", "why_tests_cant": "needs more than 255 macro uses before the task in one translation unit", "anchors": ["cicada/task.h:E_BEGIN_TASK"]}
{"id": "C23", "title": "Conditional wait with timeout", "statement": "E_REENTER_COND_TIMEOUT(c,t) continues at the first run() at which c holds or more than t ms (mod tick wrap) have passed since the wait began, and not before; the timer is re-armed for the next wait.", "quantifier": "every sequence of run() times and condition values, every t", "why_tests_cant": "unbounded", "anchors": ["cicada/task.h:E_REENTER_COND_TIMEOUT", "cicada/task.h:startTimeout/isTimeout/resetTimeout"]}
{"id": "C24", "title": "MQTTCountdown counts down", "statement": "After countdown_ms(ms)/countdown(s), left_ms() is the remaining time clamped at 0 and expired() is true iff the interval has passed, as long as the tick counter does not wrap in between.", "quantifier": "every start tick, every non-negative interval, every query time before the wrap", "why_tests_cant": "all 2^32 ticks", "anchors": ["cicada/mqttcountdown.cpp:MQTTCountdown"]}
{"id": "C25", "title": "MQTTCountdown survives tick wrap", "statement": "expired()/left_ms() are right for intervals that straddle the 32 bit tick wrap.", "quantifier": "every start tick and interval", "why_tests_cant": "wrap occurs after 49 days", "anchors": ["cicada/mqttcountdown.cpp:MQTTCountdown::left_ms"]}
{"id": "C26", "title": "MQTTCountdown::countdown(seconds) accepts any int", "statement": "countdown(s) is defined and correct for every int number of seconds.", "quantifier": "every int s", "why_tests_cant": "seconds*1000 overflows int", "anchors": ["cicada/mqttcountdown.cpp:MQTTCountdown::countdown"]}
{"id": "C27", "title": "Blocking read returns the stream in order", "statement": "BlockingCommDevice::read(buf,len,timeout) returns k<=len bytes that are exactly the next k bytes of the device's stream, never writes past buf+len, and k<len only after more than timeout ms.", "quantifier": "every device behaviour, every yield behaviour, every tick sequence, every len>=0", "why_tests_cant": "device arrival patterns are unbounded", "anchors": ["cicada/commdevices/blockingcommdev.cpp:BlockingCommDevice::read"]}
{"id": "C28", "title": "Blocking write is all or nothing towards the device", "statement": "BlockingCommDevice::write(buf,len,timeout) hands the device either the whole buffer in one write or nothing, returns len only if the device has processed everything, and 0 only after more than timeout ms.", "quantifier": "every device behaviour honouring spaceAvailable, every tick sequence", "why_tests_cant": "unbounded", "anchors": ["cicada/commdevices/blockingcommdev.cpp:BlockingCommDevice::write"]}
{"id": "C29", "title": "Blocking calls terminate", "statement": "read and write return within timeout ms plus one yield if the clock advances.", "quantifier": "every device, every clock that advances", "why_tests_cant": "liveness", "anchors": ["cicada/commdevices/blockingcommdev.cpp:BlockingCommDevice::read/write"]}
{"id": "C30", "title": "A blocking write that reports failure sent nothing", "statement": "If BlockingCommDevice::write returns 0 the data was not accepted, so the caller may retry.", "quantifier": "every device and timing", "why_tests_cant": "depends on timing of the second wait loop", "anchors": ["cicada/commdevices/blockingcommdev.cpp:BlockingCommDevice::write"]}
{"id": "C31", "title": "Connection API gating", "statement": "connect() succeeds iff host and non-zero port are set (and APN / SSID+password for the drivers that need them); write() accepts and spaceAvailable() reports room only in the connected state; disconnect() is recorded iff the device is not idle.", "quantifier": "every driver state and every API call sequence", "why_tests_cant": "all internal states", "anchors": ["cicada/commdevices/ipcommdevice.cpp:IPCommDevice", "cicada/commdevices/simcommdevice.cpp:SimCommDevice::connect", "cicada/commdevices/espressif.cpp:EspressifDevice::connect"]}
{"id": "C32", "title": "writeBufferProcessed() means the data was sent", "statement": "writeBufferProcessed() is true only if all accepted bytes were handed to the modem and acknowledged.", "quantifier": "every history of modem replies", "why_tests_cant": "error replies at particular moments", "anchors": ["cicada/commdevices/ipcommdevice.cpp:IPCommDevice::writeBufferProcessed", "cicada/commdevices/sim7x00.cpp:run"]}
{"id": "C33", "title": "A disconnect request is never lost", "statement": "If disconnect() is called after connect(), the device becomes idle again (is not left connecting/connected) as long as the modem answers.", "quantifier": "every moment at which disconnect() is called, every modem reply history", "why_tests_cant": "all interleavings of API calls with driver states", "anchors": ["cicada/commdevices/ipcommdevice.cpp:IPCommDevice::disconnect", "cicada/commdevices/sim7x00.cpp:run", "cicada/commdevices/sim800.cpp:run"]}
{"id": "C34", "title": "Reply line assembly is memory safe", "statement": "Whatever bytes the modem sends, the reply line buffer is never overrun and always NUL terminated when parsed.", "quantifier": "every byte stream and every split of it over run() calls, all four drivers", "why_tests_cant": "adversarial input", "anchors": ["cicada/commdevices/simcommdevice.cpp:fillLineBuffer", "cicada/commdevices/espressif.cpp:fillLineBuffer", "cicada/commdevices/cc1352p7.cpp:fillLineBuffer"]}
{"id": "C35", "title": "Reply lines are delivered whole", "statement": "A reply line of at most 60 characters (ending in '\\n' or '>') is handed to the parser complete and exactly once, however its arrival is split over run() calls; longer lines are split at 60 characters.", "quantifier": "every byte stream, every arrival split", "why_tests_cant": "unbounded splits", "anchors": ["cicada/commdevices/simcommdevice.cpp:fillLineBuffer", "cicada/commdevices/cc1352p7.cpp:fillLineBuffer"]}
{"id": "C36", "title": "DNS reply parsing", "statement": "For a reply +CDNSGIP: 1,\"<host>\",\"<ip>\" that fits a line, the IP later used in the open command is exactly <ip>.", "quantifier": "every host and ip string fitting the line", "why_tests_cant": "all strings", "anchors": ["cicada/commdevices/simcommdevice.cpp:SimCommDevice::parseDnsReply"]}
{"id": "C37", "title": "DNS reply parsing is memory safe", "statement": "No modem reply makes parseDnsReply write outside the 16 byte IP buffer.", "quantifier": "every reply line", "why_tests_cant": "adversarial input", "anchors": ["cicada/commdevices/simcommdevice.cpp:SimCommDevice::parseDnsReply"]}
{"id": "C38", "title": "A DNS failure does not wedge the driver", "statement": "After a malformed or negative DNS reply the driver recovers (resets or reports idle) without outside help.", "quantifier": "every DNS reply line", "why_tests_cant": "needs the replies that fail validation", "anchors": ["cicada/commdevices/simcommdevice.cpp:parseDnsReply", "cicada/commdevices/sim7x00.cpp:run", "cicada/commdevices/sim800.cpp:run"]}
{"id": "C39", "title": "Signal strength conversion", "statement": "After +CSQ: <n> the reported RSSI is -113+2n dBm for 0..31, n-216 dBm for 100..199 and 0 otherwise; it is never the 'pending' value INT16_MAX.", "quantifier": "every reply number", "why_tests_cant": "all values incl. overflow", "anchors": ["cicada/commdevices/simcommdevice.cpp:SimCommDevice::parseCsq"]}
{"id": "C40", "title": "Only valid ICCIDs are reported", "statement": "For an ICCID request, the ID string accepted starts with 89, has 18-22 digits and passes the Luhn check.", "quantifier": "every reply line", "why_tests_cant": "all digit strings", "anchors": ["cicada/commdevices/simcommdevice.cpp:SimCommDevice::parseIDReply"]}
{"id": "C41", "title": "ID replies are bounded", "statement": "Any ID reply is stored NUL terminated in its 24 byte buffer, reading only inside the line buffer; the stored text is the reply text up to CR, cut to 23 characters.", "quantifier": "every reply line", "why_tests_cant": "adversarial input", "anchors": ["cicada/commdevices/simcommdevice.cpp:SimCommDevice::parseIDReply"]}
{"id": "C42", "title": "The ID string belongs to the last request", "statement": "getIDString() returns the identification requested by the most recent requestIDString().", "quantifier": "every timing of a second request", "why_tests_cant": "second request while the first is in flight", "anchors": ["cicada/commdevices/simcommdevice.cpp:requestIDString/sendIDRequest/parseIDReply"]}
{"id": "C43", "title": "Receive requests fit the buffers", "statement": "The number of bytes a driver requests from the modem is between 1 and the minimum of: announced bytes, free space in its read buffer, free serial space minus the reserve, and the modem limit; the command's number field never overflows its 6 byte buffer.", "quantifier": "every buffer fill level and announced count", "why_tests_cant": "all sizes", "anchors": ["cicada/commdevices/simcommdevice.cpp:sendCiprxget2", "cicada/commdevices/espressif.cpp:sendCiprcvdata", "cicada/commdevices/cc1352p7.cpp:sendCiprcvdata"]}
{"id": "C44", "title": "Announced send length equals payload", "statement": "The length in AT+CIPSEND is the number of payload bytes subsequently written to the modem, and these are the oldest unsent bytes in order.", "quantifier": "every write buffer fill level, serial free space and history", "why_tests_cant": "all sizes and histories", "anchors": ["cicada/commdevices/atcommdevice.cpp:prepareSending/sendData"]}
{"id": "C45", "title": "A send command never announces zero bytes", "statement": "AT+CIPSEND is only issued with a positive length.", "quantifier": "every serial free space", "why_tests_cant": "exact boundary of free space", "anchors": ["cicada/commdevices/atcommdevice.cpp:prepareSending"]}
{"id": "C46", "title": "Locked serial stays untouched", "statement": "After serialLock() returned true the driver's run() neither reads nor writes the serial line until serialUnlock(); serialWrite/serialRead do nothing unless locked.", "quantifier": "every driver state, every number of run() calls", "why_tests_cant": "all states", "anchors": ["cicada/commdevices/simcommdevice.cpp:serialLock", "cicada/commdevices/sim7x00.cpp:run", "cicada/commdevices/sim800.cpp:run", "cicada/commdevices/atcommdevice.cpp:serialWrite/serialRead"]}
{"id": "C47", "title": "No command while a reply is outstanding", "statement": "While a driver waits for a reply it sends no further command (apart from the reset after an error): commands and replies stay paired.", "quantifier": "every driver state, every modem input, all four drivers", "why_tests_cant": "all histories", "anchors": ["cicada/commdevices/sim7x00.cpp:run", "cicada/commdevices/sim800.cpp:run", "cicada/commdevices/espressif.cpp:run", "cicada/commdevices/cc1352p7.cpp:run"]}
{"id": "C48", "title": "Drivers follow the documented state diagram", "statement": "Each run() moves the connection state machine only along the transitions of the state diagram in the driver's header, plus the documented error/reset transitions.", "quantifier": "every driver state, configuration and modem input", "why_tests_cant": "all histories", "anchors": ["cicada/commdevices/sim7x00.h:run", "cicada/commdevices/sim800.h:run", "cicada/commdevices/espressif.h:run", "cicada/commdevices/cc1352p7.h:run"]}
{"id": "C49", "title": "Each state sends exactly its command", "statement": "In each state the driver emits exactly the AT command documented for it (with the configured APN/host/IP/port), completely, if the serial write buffer has room.", "quantifier": "every configuration string and port, every state", "why_tests_cant": "all strings", "anchors": ["cicada/commdevices/sim7x00.cpp:run", "cicada/commdevices/sim800.cpp:run", "cicada/commdevices/espressif.cpp:run", "cicada/commdevices/cc1352p7.cpp:run"]}
{"id": "C50", "title": "Drivers report connected only after the modem confirmed", "statement": "isConnected() becomes true only after the modem has sent the positive reply to the open-connection command.", "quantifier": "every history of API calls and modem bytes, all four drivers", "why_tests_cant": "all histories", "anchors": ["cicada/commdevices/sim7x00.cpp:run", "cicada/commdevices/sim800.cpp:run", "cicada/commdevices/espressif.cpp:run", "cicada/commdevices/cc1352p7.cpp:run"]}
{"id": "C51", "title": "Drivers are memory safe against the modem", "statement": "No sequence of API calls and modem bytes makes a driver read or write outside its buffers, read uninitialised configuration, or dereference NULL.", "quantifier": "every history", "why_tests_cant": "adversarial modem", "anchors": ["cicada/commdevices/espressif.cpp:run", "cicada/commdevices/cc1352p7.cpp:run", "cicada/commdevices/sim7x00.cpp:run", "cicada/commdevices/sim800.cpp:run"]}
{"id": "C52", "title": "Connection handshake completes", "statement": "If the modem answers each command with its success reply, a connect() leads to isConnected() and the commands sent are exactly the documented sequence with the configured APN, host, port.", "quantifier": "every APN, host, port, IP fitting the buffers", "why_tests_cant": "all configurations", "anchors": ["cicada/commdevices/sim7x00.cpp:run", "cicada/commdevices/sim800.cpp:run", "cicada/commdevices/espressif.cpp:run", "cicada/commdevices/cc1352p7.cpp:run"]}
{"id": "C53", "title": "Application data is sent unchanged and in order", "statement": "The concatenation of the payloads handed to the modem is a prefix of the bytes accepted by write(), for every history without resetStates().", "quantifier": "every history of API calls and modem bytes", "why_tests_cant": "all histories", "anchors": ["cicada/commdevices/atcommdevice.cpp:sendData", "cicada/commdevices/sim7x00.cpp:run", "cicada/commdevices/sim800.cpp:run", "cicada/commdevices/espressif.cpp:run", "cicada/commdevices/cc1352p7.cpp:run"]}
{"id": "C54", "title": "Received payload reaches the application unchanged", "statement": "The payload bytes following a data header are appended to the read buffer unchanged and in order, and line parsing resumes right after them, provided the modem does not send more than requested.", "quantifier": "every payload, every buffer state", "why_tests_cant": "all payloads", "anchors": ["cicada/commdevices/atcommdevice.cpp:receive", "cicada/commdevices/simcommdevice.cpp:parseCiprxget2", "cicada/commdevices/espressif.cpp:parseCiprecvdata"]}
{"id": "C55", "title": "Modem-announced lengths cannot corrupt received data", "statement": "No announced length (too large, negative) corrupts already received data or blocks the driver for ever.", "quantifier": "every announced number", "why_tests_cant": "adversarial or noisy modem", "anchors": ["cicada/commdevices/atcommdevice.cpp:receive", "cicada/commdevices/simcommdevice.cpp:parseCiprxget2", "cicada/commdevices/espressif.cpp:run"]}
{"id": "C56", "title": "A failed serial open is retried and recovered", "statement": "If opening the serial port fails once and later succeeds, the driver / the modem detector work as if it had succeeded at once.", "quantifier": "every driver, every pattern of open failures", "why_tests_cant": "needs fault injection", "anchors": ["cicada/commdevices/sim7x00.cpp:run", "cicada/commdevices/sim800.cpp:run", "cicada/commdevices/espressif.cpp:run", "cicada/commdevices/cc1352p7.cpp:run", "cicada/commdevices/modemdetect.cpp:run"]}
{"id": "C57", "title": "Peer close is noticed", "statement": "After the modem reports that the peer closed the connection, isConnected() becomes false.", "quantifier": "every connected state", "why_tests_cant": "needs the unsolicited message in each state", "anchors": ["cicada/commdevices/sim7x00.cpp:run", "cicada/commdevices/simcommdevice.cpp:checkConnectionState", "cicada/commdevices/sim800.cpp:run"]}
{"id": "C58", "title": "MAC address request works on every platform", "statement": "After requestMac() the driver sends the MAC query.", "quantifier": "every state, both signed and unsigned plain char", "why_tests_cant": "depends on char signedness", "anchors": ["cicada/commdevices/espressif.cpp:requestMac/run", "cicada/commdevices/cc1352p7.cpp:requestMac/run"]}
{"id": "C59", "title": "RSSI request is answered by RSSI only", "statement": "A requestRSSI() does not change the stored ID string.", "quantifier": "every modem line received while the request is outstanding", "why_tests_cant": "missing break in a switch; needs an unsolicited line", "anchors": ["cicada/commdevices/sim800.cpp:run"]}
{"id": "C60", "title": "Modem detection is exact", "statement": "modemDetected() becomes true only after the modem's identification line (or Espressif version line plus OK) was received, and the driver constructed is the one for that modem.", "quantifier": "every history of run() calls and modem bytes", "why_tests_cant": "all byte streams", "anchors": ["cicada/commdevices/modemdetect.cpp:ModemDetect::run", "cicada/commdevices/modemdetect.cpp:getDetectedModem"]}
{"id": "C61", "title": "Modem detection line handling is memory safe", "statement": "run() never writes outside its line array, whatever is buffered.", "quantifier": "every serial buffer content, sizes up to the Size type", "why_tests_cant": "uint16_t wrap at 65535", "anchors": ["cicada/commdevices/modemdetect.cpp:ModemDetect::run"]}
{"id": "C62", "title": "Detection result is stable", "statement": "Once modemDetected() is true it stays true and getDetectedModem() forwards run(), delay and lastRun to the driver.", "quantifier": "every later history", "why_tests_cant": "fault injection on open()", "anchors": ["cicada/commdevices/modemdetect.cpp:ModemDetect::run"]}
{"id": "C63", "title": "A rejected serial configuration changes nothing", "statement": "setSerialConfig() returning false leaves the previous configuration in force.", "quantifier": "every baud rate / data bits pair", "why_tests_cant": "all pairs", "anchors": ["cicada/platform/linux/unixserial.cpp:setSerialConfig", "cicada/platform/stm32f1/stm32uart.cpp:setSerialConfig"]}
{"id": "C64", "title": "setSerialConfig accepts exactly the supported rates", "statement": "setSerialConfig() returns true exactly for the supported baud rates and data bits and selects that rate.", "quantifier": "every 32 bit rate and 8 bit width", "why_tests_cant": "2^40 inputs", "anchors": ["cicada/platform/linux/unixserial.cpp:setSerialConfig", "cicada/platform/stm32f1/stm32uart.cpp:setSerialConfig"]}
{"id": "C65", "title": "open()/close() leak no descriptor", "statement": "A failing open() leaves no file descriptor open; close() releases it; isOpen() tells the truth.", "quantifier": "every outcome of the system calls, every sequence of open/close", "why_tests_cant": "fault injection", "anchors": ["cicada/platform/linux/unixserial.cpp:open/close"]}
{"id": "C66", "title": "UART interrupt dispatch finds its driver", "statement": "getInstance(u) returns the driver object constructed for u, for up to E_MULTITON_MAX_INSTANCES drivers.", "quantifier": "every sequence of constructions and destructions", "why_tests_cant": "destroyed objects and table overflow", "anchors": ["cicada/platform/stm32f1/stm32uart.cpp:init/getInstance/~Stm32Uart"]}
{"id": "C67", "title": "Transmission never stalls", "statement": "Whenever the transmit buffer is non-empty and no write call is in progress, the transmit interrupt is enabled.", "quantifier": "every interleaving of writes and interrupts", "why_tests_cant": "schedules", "anchors": ["cicada/platform/stm32f1/stm32uart.cpp:startTransmit/handleInterrupt", "cicada/bufferedserial.cpp:write"]}
{"id": "C68", "title": "resetStates() returns to the initial state", "statement": "After resetStates() the driver behaves as freshly constructed: buffers empty, idle, no pending request or command.", "quantifier": "every driver state", "why_tests_cant": "all states", "anchors": ["cicada/commdevices/simcommdevice.cpp:resetStates", "cicada/commdevices/espressif.cpp:resetStates", "cicada/commdevices/cc1352p7.cpp:resetStates"]}
{"id": "C69", "title": "An SSL connection is not opened as plain TCP", "statement": "After setHostPort(host, port, SSL) the driver never opens an unencrypted connection: it either requests SSL from the modem or fails.", "quantifier": "every history with connection type SSL, every driver", "why_tests_cant": "the type is silently treated as TCP, which a test against a plain server does not notice", "anchors": ["cicada/commdevices/simcommdevice.cpp", "cicada/commdevices/espressif.cpp:sendCipstart", "cicada/commdevices/cc1352p7.cpp"]}
{"id": "C70", "title": "Written data is sent when the modem answers", "statement": "On an open connection with nothing pending, the k bytes accepted by write() are announced to the modem with the length k and then sent exactly, in order, once the modem consents with '>'; after the acknowledgement isWriteBufferProcessed holds and the connection is ready for the next write(). Any number of such rounds sends exactly the accepted bytes, in order.", "quantifier": "every driver, every payload that fits the transmit buffer, every split of the reply bytes, every number of rounds and of run() calls and meaningless lines in between", "why_tests_cant": "the sequences of run() calls, interrupts and reply fragments are unbounded", "anchors": ["cicada/commdevices/atcommdevice.cpp:prepareSending/sendData", "cicada/commdevices/simcommdevice.cpp", "cicada/commdevices/espressif.cpp:run", "cicada/commdevices/cc1352p7.cpp:run"]}
{"id": "C71", "title": "An announced payload follows its prompt", "statement": "After the driver announced k bytes to the modem and the modem consents with '>', the next bytes the driver sends are the k announced bytes, even if a query (RSSI, ID string, MAC address) was requested in between.", "quantifier": "every driver, every announced length, every moment of the request", "why_tests_cant": "needs a query requested exactly between the announcement and the prompt", "anchors": ["cicada/commdevices/simcommdevice.cpp:processConnect/requestRSSI", "cicada/commdevices/sim800.cpp:run", "cicada/commdevices/sim7x00.cpp:run", "cicada/commdevices/espressif.cpp:run", "cicada/commdevices/cc1352p7.cpp:run"]}
{"id": "C72", "title": "disconnect() while closing does not cancel the next connect()", "statement": "A disconnect() made while the connection is already being closed has no further effect: once isIdle() holds, an accepted connect() opens a connection that stays open.", "quantifier": "every driver, every moment of the second disconnect()", "why_tests_cant": "a leftover request flag only shows in the next connection", "anchors": ["cicada/commdevices/atcommdevice.cpp:disconnect", "cicada/commdevices/atcommdevice.cpp:connect", "cicada/commdevices/atcommdevice.cpp:handleDisconnect"]}
{"id": "C73", "title": "A connection is opened only on request", "statement": "As long as no connect() was accepted, the driver reports no connection and sends no command that configures or opens one, no data and no receive request; only queries that were requested and the reset sequence.", "quantifier": "every history of calls, interrupts and received bytes, every driver", "why_tests_cant": "all modem byte streams", "anchors": ["cicada/commdevices/simcommdevice.cpp:resetStates", "cicada/commdevices/sim800.cpp:run", "cicada/commdevices/sim7x00.cpp:run", "cicada/commdevices/espressif.cpp:run", "cicada/commdevices/cc1352p7.cpp:run"]}
{"id": "C74", "title": "An ERROR reply is noticed", "statement": "When a run() reads an error reply (ERROR, FAIL or the driver's other error words), nothing is sent in that run(), the connection is reported as lost, and the next run() starts the recovery documented for that modem (reset or shutdown command).", "quantifier": "every driver, every state in which a reply is awaited, every interleaving", "why_tests_cant": "errors at every point of every dialogue", "anchors": ["cicada/commdevices/sim800.cpp:run", "cicada/commdevices/sim7x00.cpp:run", "cicada/commdevices/espressif.cpp:run", "cicada/commdevices/cc1352p7.cpp:run"]}
{"id": "C75", "title": "Reported data is fetched and becomes readable", "statement": "On an open connection with nothing pending, when the modem reports received data, states that n bytes are waiting and delivers them in any number of non-empty pieces, the driver asks for the number of bytes where the report does not contain it (SIM modems), asks for each piece (never for more than the modem stated nor than the modem's limit), and afterwards read() returns exactly the n delivered bytes after what was readable before, in order; the connection is then ready for the next report.", "quantifier": "every n that fits the read buffer, every division into pieces, every payload, every number of run() calls and meaningless lines in between, every split of the bytes by interrupts", "why_tests_cant": "the sequences of run() calls, interrupts and fragments are unbounded", "anchors": ["cicada/commdevices/simcommdevice.cpp:parseCiprxget4/parseCiprxget2/sendCiprxget2", "cicada/commdevices/atcommdevice.cpp:receive", "cicada/commdevices/sim800.cpp:run", "cicada/commdevices/sim7x00.cpp:run", "cicada/commdevices/espressif.cpp:run/sendCiprcvdata", "cicada/commdevices/cc1352p7.cpp:run"]}
{"id": "C76", "title": "The driver never stops reading the modem", "statement": "Whatever the modem sends, the driver goes on reading its lines as long as run() is called: a malformed or empty answer may end the connection, but a later disconnect() and connect() work without calling resetStates() or reopening the port.", "quantifier": "every driver, every answer to a request for received data, every later history of calls and received bytes", "why_tests_cant": "needs an answer with length zero and an unbounded wait afterwards", "anchors": ["cicada/commdevices/simcommdevice.cpp:parseCiprxget2", "cicada/commdevices/atcommdevice.cpp:fillLineBuffer/receive", "cicada/commdevices/sim800.cpp:run", "cicada/commdevices/sim7x00.cpp:run", "cicada/commdevices/espressif.cpp:run", "cicada/commdevices/cc1352p7.cpp:run"]}
{"id": "C77", "title": "A Unix port sends and receives exactly what passes between program and terminal", "statement": "Between open() and close() run() moves bytes unchanged and in order: what the terminal took is a prefix of what write() accepted, the rest is at most the buffer's size, isWriteBufferProcessed() says whether there is a rest, and enough calls of run() send it all; what the read functions return is a prefix of what was received. Before open(), after close() and after an open() that found no terminal nothing is received or sent. No call is undefined in any of these states. Bytes pass only while isOpen().", "quantifier": "every history of open(), close(), setSerialConfig(), read and write calls and run(), every outcome of the system calls", "why_tests_cant": "faults of the system calls combined with arbitrary call sequences", "anchors": ["cicada/platform/linux/unixserial.cpp:open/close/rawRead/rawWrite/writeBufferProcessed", "cicada/bufferedserial.cpp:transferToAndFromBuffer", "cicada/bufferedserial.h:run"]}
{"id": "C78", "title": "The tick measures time", "statement": "The difference of two ticks, in the unsigned arithmetic of the tick type, is the time that passed in milliseconds, less than two off, also when the tick wraps in between; so a timeout expires neither a millisecond early nor two late.", "quantifier": "every pair of clock readings less than 2^32 - 1 ms apart, every rounding mode", "why_tests_cant": "wrapping, rounding and large uptimes", "anchors": ["cicada/platform/linux/tick_linux.cpp:eTickFunction", "cicada/platform/mbed/mbedtick.cpp:eTickFunction"]}
{"id": "C79", "title": "Any number of complete sessions works", "statement": "Starting from a new driver, connect(), write(), run() with received data, read() and disconnect() can follow one another in any sensible order and any number of times, including connections opened after earlier ones were closed: each makes the driver send exactly its own commands and data and nothing else, what read() returned plus what is still readable is exactly what was received, in order, and nothing of one session changes the next.", "quantifier": "every driver, every sequence of connections, writes, receptions, reads and disconnections, every number of run() calls, empty or meaningless lines and splits of the replies in between", "why_tests_cant": "the state left behind by one session is only visible in later ones, and sessions and interleavings are unbounded", "anchors": ["cicada/commdevices/atcommdevice.cpp:connect/disconnect/read/write/handleConnect/handleDisconnect", "cicada/commdevices/espressif.cpp:run", "cicada/commdevices/cc1352p7.cpp:run", "cicada/commdevices/sim7x00.cpp:run", "cicada/commdevices/sim800.cpp:run"]}
{"id": "C80", "title": "Lending the port does not disturb the connection", "statement": "When serialLock() succeeds, what the program sends and receives over the port until serialUnlock() does not affect the connection: no data of the connection goes to serialRead(), nothing the modem answers meanwhile becomes readable on the connection, and afterwards the driver works on as if the port had not been lent.", "quantifier": "every moment at which serialLock() succeeds, every sequence of serialWrite(), serialRead(), run() and query calls in between, every received byte stream", "why_tests_cant": "the lock can be taken between any two bytes of a reply", "anchors": ["cicada/commdevices/simcommdevice.cpp:serialLock/serialUnlock", "cicada/commdevices/atcommdevice.cpp:serialWrite/serialRead", "cicada/commdevices/sim800.cpp:run", "cicada/commdevices/sim7x00.cpp:run"]}
{"id": "C81", "title": "An identification query is answered", "statement": "When nothing else is under way, requestIDString() makes the driver send the standard command for exactly the kind asked for (manufacturer, model, IMEI, IMSI, ICCID), once; the text the modem answers, up to 23 characters, is what getIDString() returns once the modem has also said OK; the connection, its parameters, pending data and readable data are untouched, and sessions go on as before.", "quantifier": "both SIM drivers, connected or not, every kind of identification, every answer, every number of run() calls, empty or meaningless lines and splits of the replies in between", "why_tests_cant": "the query interleaves with the connection's own exchange, and the answer is an arbitrary line in arbitrary pieces", "anchors": ["cicada/commdevices/simcommdevice.cpp:requestIDString/getIDString/sendIDRequest/parseIDReply", "cicada/commdevices/sim7x00.cpp:run", "cicada/commdevices/sim800.cpp:run"]}
{"id": "C82", "title": "A signal strength query is answered", "statement": "When nothing else is under way, requestRSSI() makes the driver send AT+CSQ, once; once the modem has answered with the value n and OK, getRSSI() returns n converted to dBm (2n - 113 for 0 to 31, n - 216 for 100 to 199, otherwise 0); the connection, its parameters, the identification, pending data and readable data are untouched, and sessions go on as before.", "quantifier": "both SIM drivers, connected or not, every reported value, every number of run() calls, empty or meaningless lines and splits of the replies in between", "why_tests_cant": "the query interleaves with the connection's own exchange, and the answer arrives in arbitrary pieces", "anchors": ["cicada/commdevices/simcommdevice.cpp:parseCsq", "cicada/commdevices/atcommdevice.cpp:requestRSSI/getRSSI", "cicada/commdevices/sim7x00.cpp:run", "cicada/commdevices/sim800.cpp:run"]}
{"id": "C83", "title": "Losing the connection while data is fetched is noticed", "statement": "When the modem reports the loss of the connection or of the network while received data is being fetched, the driver gives up the transfer: isConnected() becomes false, and a later connect() opens a new connection.", "quantifier": "the Espressif driver on a TCP connection and the CC1352P7 driver, every amount reported, every later sequence of calls and received lines, every schedule of arriving bytes", "why_tests_cant": "the report has to fall between the request for the data and its reply, and the claim is about everything that can happen afterwards", "anchors": ["cicada/commdevices/espressif.cpp:run/sendCiprcvdata", "cicada/commdevices/cc1352p7.cpp:run/sendCiprcvdata"]}
