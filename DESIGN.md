# Formal model of EnAccess/Cicada-FW in Rocq (Coq 8.16.1)

The source is read as text from /repo; nothing there is built or changed.  All
line numbers in the comments of the model refer to /repo/cicada.

## 1. Layout

`rocq/theories/`.  A definition that models code carries the file and lines it
was read from.

| files | content |
|---|---|
| `Base`, `CStr` | outcome type with undefined behaviour (`res`), machine integers, C strings (`strlen`, `strncmp`, `strtol`, `snprintf` as used here) |
| `Ring`, `LineRing` | `circularbuffer.h`, `linecircularbuffer.h` |
| `Serial` | `bufferedserial.cpp`: atomic sections with interrupts between them |
| `TaskMacros`, `Sched` | `task.h` (the macro language), `scheduler.cpp` |
| `Countdown`, `Blocking` | `mqttcountdown.cpp`, `blockingcommdev.cpp` |
| `Dev` | `ipcommdevice.cpp`, `atcommdevice.cpp`: the state and functions all drivers share, the calls of an application (`dop`), and runs of calls (`d_run`) |
| `SimDev` | `simcommdevice.cpp` |
| `Sim7x00`, `Sim800`, `Espressif`, `Cc1352` | the four drivers, `run()` and all |
| `Detect` | `modemdetect.cpp` |
| `UnixSerial`, `Stm32` | `unixserial.cpp` (configuration, open, close), `stm32uart.cpp` |
| `QueueSpec`, `LineSpec`, `SerialSpec`, `TaskSpec`, `SimSpec`, `*Spec` | specifications that do not use the model: list queues, line splitting, a coroutine semantics for tasks, state diagrams and command tables as in the headers |
| `Sym`, `Drv*`, `Sim*`, `AtLine`, `SimHand` | machinery common to several drivers: symbolic execution, the step relation of a call, histories, actions |
| `Sim7*`, `Sim8*`, `Cc*`, `Es*` | the same chain of files for each driver: `Proofs` (functions are memory safe and keep the invariant), `Ctl`, `CtlIn`, `Run`, `Hist` (what a run() does, as a relation), `Thms`, `More`, `Line`, `Req`, `Rest`, `Stuck`, `Ack`, `Recv`, `Hand`, `Send`, `Fetch`, `Deaf`, `Lost`, `Session`, `Query` (not every driver has every file) |
| `Session`, `HandCheck`, `DrvTalk` | scripts of calls and modem replies for the examples, and a checker for dialogues |
| `*Props` | the property theorems `Cnn_...`, an `Example` beside each showing that its hypotheses can be met, and `Print Assumptions` |

## 2. Conventions

* A C++ function becomes a total Gallina function on values.  Undefined
  behaviour (access outside an array, use of an uninitialised pointer, NULL
  dereference, signed overflow) is a distinct outcome `UB u` of `res`; it never
  looks like a normal result.
* Fixed-width integers are `Z` with explicit wrap functions wherever a wrap can
  matter; `nat` is used for array indices and lengths.
* `Size` is 64 bit (`types.h`, `defines.h`).  Sizes of existing arrays are
  `nat`; sums of sizes of existing arrays cannot wrap a 64 bit word.
* What differs between platforms is a parameter (`plat`): whether plain `char`
  is signed and whether `long` has 64 bits.  The theorems hold for each.
* The contents of uninitialised memory are arbitrary parameters of the
  constructors (`raw_...`); pointers never set are `PUninit`, reading them is UB.
* A property that is false of the code is kept in the list.  A theorem
  `..._refuted` gives a counterexample (a session, or a statement about all
  sessions of a kind), and further theorems state what is true instead.  Such
  entries have status "proved" in the manifest with a note that the claim is
  false as stated; they are the findings of section 5.

### 2.1 Interrupts

Every call of an application comes with a schedule: a list of lists of interrupt
actions (`isr`).  Each time the code enters or leaves an atomic section of
`bufferedserial.cpp`, the next list is executed; what is left is executed after
the call.  An interrupt action is the transfer of a byte in each direction as
`BufferedSerial::transferToAndFromBuffer` does it.  A theorem about "every
history" quantifies over all calls, arguments and schedules.  Events (`event`)
record the bytes that went over the wire, into and out of the buffers, and the
bytes lost.

### 2.2 Drivers

`d_step D op sch d` is one call.  `hist` is a sequence of entries: the call, its
schedule, result, events, and for run() its actions (`act`): the line read, the
command sent, the payload moved.  `C51_*_histories` shows that every sequence
of valid calls that does not reach undefined behaviour is such a history, and
`C51_*_actions` that the bytes of the actions are exactly the bytes moved, so
that theorems about actions are theorems about the wire.  "Valid" means pointers
to strings where strings are expected and arrays at least as long as the length
passed with them; NULL host and so on are valid where the code checks them.

### 2.3 A modem that answers (C52, C70)

`dialogue step noise N replies d tr d'` (`DrvHand.v`): for each element of
`replies` there is a run() that reads such a line (or reads none, `None`).
Before it there may be any number of run()s that read nothing or a line without
meaning for the driver (`noise`: empty lines, echoes, anything but the listed
words), and calls that only look, at any time.  Interrupts happen at any time, so
lines may arrive in any pieces.  At each run() the transmit buffer has at least
`N` free bytes.  For the SIM drivers the address and the "OK" answering the DNS
query may come in either order.  `DrvTalk.v` has an executable check that a
script is a dialogue; the examples beside the C52 theorems use it.

## 3. Properties: what is modelled, how proved

| id | model | proof |
|---|---|---|
| C01 | `Ring` with heads, memory, count | refinement to a list queue by induction over operation lists |
| C02 | bulk push and pull | loop induction, memory/contents lemma |
| C03 | all ring operations, UB outcome for out of range | invariant over arbitrary operation lists |
| C04, C05 | element push when full, pull when empty | refuted by witness; exact behaviour proved |
| C06, C08 | `LineRing`, counter mod 2^16 | invariant: counter = number of LF in contents; refutations (65536 lines, overrun, underrun) |
| C07 | readLine | induction on contents |
| C09-C12, C14-C16 | `Serial` as atomic sections, arbitrary interrupt lists between them | invariant on wire and accepted streams, induction over schedules |
| C13 | readLine of the serial port | refuted by witness |
| C17-C19 | scheduler with abstract task bodies | induction over the number of calls; modular arithmetic |
| C20, C23 | macro programs as flat code with labels | simulation against a coroutine semantics (a blocking thread) |
| C21, C22 | static entry point, 8 bit label | refuted by witness; safe conditions proved |
| C24-C26 | countdown arithmetic | arithmetic with wraps; refuted at the wrap |
| C27-C30 | blocking loops over an abstract device and a clock stream | induction over the stream of yields |
| C31 | the API calls of `Dev` for every driver | each call's exact effect, for arbitrary states |
| C32, C33, C46-C50, C53, C54, C56-C59 | `run()` of each driver, `hist` | a run() is related to its actions (`*Run`, `*Hist`); invariants over all histories; refutations by sessions or by stuck-state invariants |
| C34, C35 | line assembly, `at_fill`, `se_fill` | loop invariant; a line is whole exactly when it ends as documented |
| C36-C38 | `parseDnsReply` | string lemmas (quotes); overflow session; wedge invariant |
| C39-C42 | `parseCsq`, `parseIDReply`, Luhn check | parse/print lemmas; digit induction |
| C43-C45, C55 | `sendCiprxget2`, `prepareSending`, `sendData`, `receive` | arithmetic over the looks at the buffers between which interrupts happen; invariant relating announced and unsent bytes |
| C51 | all driver functions | weakest preconditions (`wp`), invariant over all histories |
| C52 | driver `run()` and a modem that answers | each state's run() is computed symbolically for all parameters; induction over dialogues |
| C60-C62 | `Detect` | invariants over histories, arithmetic for the 16 bit size |
| C63-C65 | `UnixSerial`; system call results are an oracle | case analysis, invariant over histories |
| C66, C67 | `Stm32`; registers and HAL effects explicit | registry induction; invariant over interleavings |
| C68 | `resetStates` | equality with the constructor's state |
| C69 | connection commands | command tables |
| C70 | `write()`, driver `run()` and a modem that answers | as C52; induction over the rounds |
| C71, C72 | driver `run()` | refuted: the run() reading the prompt is computed for all states with a pending query; sessions |
| C73 | `run()` of each driver, `hist` | invariant over histories without an accepted connect() (`DrvRest.v`); refutations by sessions |
| C74 | `run()` of each driver | the run() reading the error and the next one are computed for all states |
| C75 | report, count (SIM drivers), request, header, payload and acknowledgement of the four drivers; Espressif on UDP and SSL connections: any number of datagrams the module sends without being asked | dialogues as in C70; the requests are followed stage by stage (Sim7Fetch.v, Sim8Fetch.v, CcFetch.v, EsFetch.v), the pieces by induction (`chunks` in DrvFetch.v); datagrams: two sets of states, nothing or n bytes to come, and induction over the calls (`feed` in EsGram.v) |
| C76 | false for all four drivers: the answer to a request for received data announces zero bytes | a set of states with line reading off and nothing to read is closed under run() and every call except resetStates() and a closed port (DrvDeaf.v; *Deaf.v by symbolic execution of the output part); the dialogue of C75 leads into it |
| C77 | `UnixPort`: `UnixSerial` with its buffers; `::read` and `::write` are an oracle that fails on a descriptor that is not open | invariant relating the descriptor to the calls made; replay of the buffers along histories |
| C78 | `Tick`: `tick_linux.cpp`, `mbedtick.cpp` | for every monotone rounding that keeps integers up to 2^53; induction for mbed |
| C79 | the drivers' handshakes, sending, receiving and reading, one after the other, any number of times (DrvSession.v, EsSession.v, CcSession.v, Sim7Session.v, Sim8Session.v) | an invariant between two such parts (`se_between`, `sc_between`, `s7_between`, `s8_between`), kept by each part; induction over the session |
| C80 | serialLock(), serialWrite(), serialRead(), serialUnlock() of the SIM drivers (SimDev.v, Dev.v) | false while payload is received (finding 16; a session as witness); between the parts of a session every borrowed phase leaves the driver unchanged (induction over the phase) |
| C81 | requestIDString(), run(), getIDString() of the SIM drivers between the parts of a session (SimQuery.v, Sim7Query.v, Sim8Query.v) | the query is followed stage by stage through the dialogue; the buffer is computed from the line read |
| C82 | requestRSSI(), run(), getRSSI() of the SIM drivers between the parts of a session (Sim7SignalProps.v, Sim8SignalProps.v) | as C81; the value is read back from its decimal digits |
| C83 | the Espressif and CC1352P7 drivers while the reply to AT+CIPRECVDATA is outstanding (EsLost.v, CcLost.v) | false (finding 25): the states in which the header of the reply is awaited are closed under every call and every line except the header, an error line and resetStates() (`se_asked`, `sc_asked`, induction over the history); nothing is sent in them |

## 4. Trusted base

* Coq 8.16.1's kernel (and `coqchk`).  No axioms: `Print Assumptions` stands
  under every property theorem and prints "Closed under the global context".
  (`coqchk` lists `Coq.ssr.ssrunder.Under_rel.*` of the standard library because
  a module of it is loaded; no theorem uses it.)
* The reading of C++ expressed by the definitions of the model.
* The assumptions named in the theorems' hypotheses, in particular:
  serial buffers of at least one byte and sizes that fit the machine words
  (`serial_wf`, `fits`); valid arguments (2.2); for C67 that HAL calls keep the
  interrupt enable bits; for C65 and C77 that the kernel returns unused descriptors;
  for C78 that double arithmetic is monotone and exact on integers up to 2^53.

### 4.1 Modelled

All of `circularbuffer.h`, `linecircularbuffer.h`, `bufferedserial.cpp`,
`task.h`, `scheduler.cpp`, `mqttcountdown.cpp`, `blockingcommdev.cpp`,
`ipcommdevice.cpp`, `atcommdevice.cpp`, `simcommdevice.cpp`, `sim7x00.cpp`,
`sim800.cpp`, `espressif.cpp`, `cc1352p7.cpp`, `modemdetect.cpp`; of
`unixserial.cpp` everything but the contents of the termios structure apart from
speed and character size; `tick_linux.cpp` and `mbedtick.cpp`; of `stm32uart.cpp` the
registry, open, close, configuration, interrupt handler and transmit start; the
platform functions as far as the above call them (tick, irq) as parameters
(`irq_linux.cpp` is empty).

### 4.2 Simplified

* `Task::setDelay` in the drivers: the delay is recorded, its effect on the
  scheduler is the subject of C17-C19 only.
* Strings are lists of characters; a `const char*` passed by the application is
  `PNull` or `PStr s` (its storage is not changed behind the driver's back).
* `snprintf("%u")` and friends are decimal printing cut to the buffer;
  `strtol` is modelled with its range behaviour.
* Interrupts occur at the boundaries of atomic sections; this is exact for code
  in which shared data are only touched inside of them, which is how
  `bufferedserial.cpp` is written.
* The model of `Stm32Uart` has the bits of the registers the code uses.

### 4.3 Not modelled

`mbedserial.cpp` (it does not compile: `_writeBuffer.availableData()` does not
exist), `noplatform.h` (a template with wrong signatures and without
startTransmit()), `tick_stm32.cpp` (returns HAL_GetTick()), the irq functions of
the other platforms, C++ object lifetimes apart from the registry of `Stm32Uart` and the placement of drivers in `ModemDetect`, and
the examples and tests.

## 5. Findings

What the proofs found to be different from what one would expect.  "C.." names
the theorems; those without are seen in the model but are not stated as theorems.

### Buffers and serial port
1. A single push into a full ring buffer and a single pull from an empty one
   break the count; a buffer of size 0 is undefined behaviour (C03, C04, C05).
2. The line counter wraps at 65536 lines and goes wrong after an overrun or
   underrun (C08).
3. `BufferedSerial::readLine` includes the '\n' although its documentation says
   it does not (C13); `write(uint8_t)` on a full buffer loses old data (C10).

### Tasks and time
4. The task macros keep the resume point in a static variable shared by all
   instances (C21); `_timeout` is read uninitialised (C21); macros numbered 256
   and up are never reached (C22); delays are cut to 16 bits (C19).
5. Running an empty scheduler dereferences NULL (C17).
6. `MQTTCountdown` is wrong when the tick wraps (C25) and overflows for large
   arguments (C26).
7. Blocking calls: a negative length (C27), failure reported for accepted data
   (C30), no return with a clock that stands still (C29).

### All drivers
8. disconnect() right after connect() is ignored (C33); writeBufferProcessed()
   is true after an error reply or a close notice (C32).
9. With exactly 22 free bytes 0 bytes are announced (C45); the check for 20 free
   bytes does not suffice for long commands, which are cut (C49).
10. receive() does not look at the room in the read buffer: more data than fits
    overwrites received data; a length larger than the serial buffer, or a
    negative one, blocks the driver for ever (C55).
11. With an interrupt between two looks at the free space a receive request may
    be for 0 bytes (C43) and more may be announced than is there (C53).
12. A failed open() leaves the driver in serialError (C56).
13. A close notice ends the wait for the reply of another command (C47).
14. A request for RSSI, ID or MAC that is pending when '>' arrives is sent in
    place of the announced payload (C71).
15. connect() does not clear a pending disconnect request: after two
    disconnect() calls while closing, the next connection is closed at once (C72).
16. serialLock() succeeds while binary payload is being received; serialRead() then gets the
    data of the connection and read() the end of the modem's reply (C80_sim7_refuted, C80_sim8_refuted).

30. A header announcing zero bytes (the answer to a request the modem cannot
    fulfil, or to a request for zero bytes, which the driver itself sends when
    received bytes arrive between its checks) switches line reading off with
    nothing left to read. The driver sends one more command and waits for ever:
    disconnect() is not noticed or ends in a closing command whose reply is not
    read. Only resetStates() or closing the port helps (C76).

### SIM drivers
17. A DNS reply with an address of more than 15 characters overflows `_ip`
    (C37); a reply with too few or too many quotes blocks the driver (C38).
18. A second requestIDString() gets the reply of the first (C42); "OK" is
    accepted as an identification (C47); the check of the ICCID only looks at
    leading digits (C40).
19. SIM7x00: "+IPCLOSE" without pending data is ignored (C57); a reset forgets
    connect and disconnect requests; ERROR in reply to AT+CIPRXGET=2 leaves the
    driver waiting (C74).
20. SIM800: a missing `break` behind the CSQ reply (C39, C59); disconnect during
    AT+CIPSTART keeps waiting; an ERROR line while idle leads to a reset that
    opens a connection nobody asked for (C73; the CC1352P7 driver does the same).
21. Type SSL is opened as plain TCP by SIM7x00, SIM800 and CC1352P7 (C69).

### CC1352P7 and Espressif
22. Espressif: `_ssid` and `_passwd` are not initialised, connect() before
    setting them reads them (C51, C31); getMac() before requestMac() reads an
    uninitialised buffer (C51); the MAC request compares a char with 0xFF and
    never works where char is signed (C58); the MAC buffers are not reset (C68).
23. CC1352P7: RSSI is not converted (C39); the RSSI reply falls through to the MAC
    reply (C59); a reply larger than asked for wraps the counter of bytes to
    fetch, as on the other drivers (C55_cc_wrap_refuted, C55_esp_wrap_refuted,
    C55_sim7_wrap_refuted, C55_sim8_wrap_refuted).
24. Espressif, UDP: "+IPD" while a reply is awaited blocks the driver (C55); a
    network name with a comma or a long one breaks RSSI (C39).
25. Espressif: "WIFI DISCONNECT" while the reply to AT+CIPRECVDATA is outstanding
    leaves the reply state; the driver is blocked until an ERROR line: nothing is
    sent, isConnected() stays true, a later connect() is accepted and has no effect
    (C83_esp_lost_refuted). On the CC1352P7 driver "CLOSED" does the same
    (C83_cc_lost_refuted).

### Header diagrams
26. Transitions that exist but are not documented, listed in C48: among them
    sendNetopen to finalizeDisconnect (SIM7x00), sendCwmode and sendCipmux
    (Espressif), connected to finalizeDisconnect (CC1352P7).

### ModemDetect and ports
27. ModemDetect: the 16 bit array size wraps at 65535 available bytes (C61); a
    failing open() takes the result back for ever (C62).
28. UnixSerial: open() leaks the descriptor if a call behind the tty test fails;
    isOpen() stays true without a descriptor (C65); setSerialConfig() returning
    false may have changed the rate (C63, both ports); 4800 and 500000 baud are
    missing (C64).
31. UnixSerial: after an open() that failed behind the tty test, isOpen() is false
    but bytes are still received and sent (C77).
32. On Linux with a 32 bit time_t, `tv_sec * 1000` overflows (undefined) after 24.8
    days of uptime, before the tick wraps (C78).
29. Stm32Uart: instances beyond the maximum are not registered, destroyed ones
    stay registered (C66); bytes written before the first open() are not sent
    (C67).
