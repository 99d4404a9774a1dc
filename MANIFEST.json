{
 "claims": [
  {
   "property": "C01",
   "status": "proved",
   "theorems": [
    "C01_ring_is_bounded_fifo"
   ],
   "note": ""
  },
  {
   "property": "C02",
   "status": "proved",
   "theorems": [
    "C02_bulk_push",
    "C02_bulk_pull"
   ],
   "note": ""
  },
  {
   "property": "C03",
   "status": "proved",
   "theorems": [
    "C03_ring_safe_and_accounted",
    "C03_zero_size_refuted"
   ],
   "note": "Holds for every capacity >= 1; capacity 0 is refuted (out-of-bounds access)."
  },
  {
   "property": "C04",
   "status": "proved",
   "theorems": [
    "C04_overrun_keeps_order_refuted",
    "C04_overrun_exact",
    "C04_flush_recovers"
   ],
   "note": "As stated false: refuted with a witness; the exact behaviour of a push into a full buffer and the recovery by flush() are proved."
  },
  {
   "property": "C05",
   "status": "proved",
   "theorems": [
    "C05_underrun_refuted"
   ],
   "note": "As stated false: refuted with a witness."
  },
  {
   "property": "C06",
   "status": "proved",
   "theorems": [
    "C06_line_buffer_is_line_queue"
   ],
   "note": ""
  },
  {
   "property": "C07",
   "status": "proved",
   "theorems": [
    "C07_readline_removes_one_line",
    "C07_split_line_spec"
   ],
   "note": ""
  },
  {
   "property": "C08",
   "status": "proved",
   "theorems": [
    "C08_counter_exact_mod_2_16",
    "C08_counter_wrap_refuted",
    "C08_overrun_refuted",
    "C08_underrun_refuted"
   ],
   "note": "As stated false: three refutations (65536 lines, overrun, underrun); the counter is proved exact modulo 65536 for all legal histories."
  },
  {
   "property": "C09",
   "status": "proved",
   "theorems": [
    "C09_serial_never_faults",
    "C09_rx_stream",
    "C09_rx_received_is_delivered"
   ],
   "note": ""
  },
  {
   "property": "C10",
   "status": "proved",
   "theorems": [
    "C10_tx_stream",
    "C10_tx_accepted_is_sent",
    "C10_write_byte_refuted"
   ],
   "note": "Proved for histories in which write(byte) is never called on a full buffer; refuted for write(byte) on a full buffer."
  },
  {
   "property": "C11",
   "status": "proved",
   "theorems": [
    "C11_read_many"
   ],
   "note": ""
  },
  {
   "property": "C12",
   "status": "proved",
   "theorems": [
    "C12_write_many",
    "C12_write_str"
   ],
   "note": ""
  },
  {
   "property": "C13",
   "status": "proved",
   "theorems": [
    "C13_readline_strips_newline_refuted"
   ],
   "note": "As stated false: the newline is delivered; refuted with a witness."
  },
  {
   "property": "C14",
   "status": "proved",
   "theorems": [
    "C14_readline_one_line",
    "C14_readline_bounded"
   ],
   "note": ""
  },
  {
   "property": "C15",
   "status": "proved",
   "theorems": [
    "C15_can_read_line"
   ],
   "note": ""
  },
  {
   "property": "C16",
   "status": "proved",
   "theorems": [
    "C16_overflow_drops_newest"
   ],
   "note": ""
  },
  {
   "property": "C17",
   "status": "proved",
   "theorems": [
    "C17_round_robin",
    "C17_every_task_in_n_calls",
    "C17_empty_list_refuted"
   ],
   "note": "Proved for non-empty task lists; an empty list dereferences NULL (refuted)."
  },
  {
   "property": "C18",
   "status": "proved",
   "theorems": [
    "C18_due_exactly",
    "C18_first_run",
    "C18_never_early"
   ],
   "note": ""
  },
  {
   "property": "C19",
   "status": "proved",
   "theorems": [
    "C19_minimum_delay",
    "C19_long_delay_refuted"
   ],
   "note": "Holds for delays below 65536; longer ones are cut to 16 bits (refuted)."
  },
  {
   "property": "C20",
   "status": "proved",
   "theorems": [
    "C20_body_is_thread",
    "C20_in_order_once",
    "C20_completes"
   ],
   "note": "Full refinement to a blocking thread for bodies whose macro numbers are below 256, including loops and branches."
  },
  {
   "property": "C21",
   "status": "proved",
   "theorems": [
    "C21_two_instances_refuted",
    "C21_uninitialised_timer_refuted"
   ],
   "note": "As stated false: two refutations (shared resume point, uninitialised timer)."
  },
  {
   "property": "C22",
   "status": "proved",
   "theorems": [
    "C22_dead_task_refuted",
    "C22_never_resumes_refuted"
   ],
   "note": "As stated false: bodies from macro number 256 on are dead; C20 gives the exact positive range."
  },
  {
   "property": "C23",
   "status": "proved",
   "theorems": [
    "C23_wait_with_timeout"
   ],
   "note": ""
  },
  {
   "property": "C24",
   "status": "proved",
   "theorems": [
    "C24_counts_down",
    "C24_counts_down_seconds",
    "C24_uninitialised_refuted"
   ],
   "note": ""
  },
  {
   "property": "C25",
   "status": "proved",
   "theorems": [
    "C25_expires_at_once_refuted",
    "C25_unexpired_refuted"
   ],
   "note": "As stated false in both directions, for all wrapping intervals."
  },
  {
   "property": "C26",
   "status": "proved",
   "theorems": [
    "C26_seconds_overflow_refuted"
   ],
   "note": "As stated false; exact range of definedness proved."
  },
  {
   "property": "C27",
   "status": "proved",
   "theorems": [
    "C27_read_is_stream",
    "C27_negative_length_refuted"
   ],
   "note": "Proved for non-negative lengths; negative length refuted."
  },
  {
   "property": "C28",
   "status": "proved",
   "theorems": [
    "C28_write_all_or_nothing"
   ],
   "note": ""
  },
  {
   "property": "C29",
   "status": "proved",
   "theorems": [
    "C29_read_returns",
    "C29_write_returns",
    "C29_stopped_clock_refuted"
   ],
   "note": "Proved for advancing clocks; a stopped clock (platform/noplatform) never returns."
  },
  {
   "property": "C30",
   "status": "proved",
   "theorems": [
    "C30_failed_write_sent_nothing_refuted"
   ],
   "note": "As stated false: refuted with a witness."
  },
  {
   "property": "C31",
   "status": "proved",
   "theorems": [
    "C31_write",
    "C31_space",
    "C31_read",
    "C31_disconnect",
    "C31_connect_sim7",
    "C31_connect_sim800",
    "C31_connect_cc1352",
    "C31_connect_espressif",
    "C31_espressif_unset_refuted"
   ],
   "note": ""
  },
  {
   "property": "C32",
   "status": "proved",
   "theorems": [
    "C32_cc_not_before_reply",
    "C32_cc_unsent",
    "C32_cc_refuted",
    "C32_esp_not_before_reply",
    "C32_esp_unsent",
    "C32_esp_refuted",
    "C32_sim7_not_before_reply",
    "C32_sim7_unsent",
    "C32_sim7_refuted",
    "C32_sim8_not_before_reply",
    "C32_sim8_unsent",
    "C32_sim8_refuted"
   ],
   "note": "All four drivers (theorems *_sim7_*, *_sim8_*, *_esp_*, *_cc_*). False as stated: an error reply or (SIM drivers, CC1352P7) a close notice also makes it true (*_refuted). Proved: it is false from the announcement of a block until a reply that ends the transmission, and while accepted bytes were not handed over."
  },
  {
   "property": "C33",
   "status": "proved",
   "theorems": [
    "C33_cc_kept",
    "C33_cc_idle",
    "C33_cc_refuted",
    "C33_esp_kept",
    "C33_esp_idle",
    "C33_esp_refuted",
    "C33_sim7_kept",
    "C33_sim7_idle",
    "C33_sim7_refuted",
    "C33_sim8_kept",
    "C33_sim8_idle",
    "C33_sim8_refuted"
   ],
   "note": "All four drivers (theorems *_sim7_*, *_sim8_*, *_esp_*, *_cc_*). False as stated: a disconnect() right after connect() is ignored (*_refuted). Proved: a recorded request stays recorded until the driver starts closing or the states are reset (*_kept), and exactly when it is recorded (*_idle)."
  },
  {
   "property": "C34",
   "status": "proved",
   "theorems": [
    "C34_cc_line_buffer",
    "C34_esp_line_buffer",
    "C34_sim7_line_buffer",
    "C34_sim8_line_buffer"
   ],
   "note": "All four drivers (theorems *_sim7_*, *_sim8_*, *_esp_*, *_cc_*). In every history of calls and interrupts."
  },
  {
   "property": "C35",
   "status": "proved",
   "theorems": [
    "C35_cc_lines",
    "C35_esp_lines",
    "C35_esp_end",
    "C35_sim7_lines",
    "C35_sim8_lines"
   ],
   "note": "All four drivers (theorems *_sim7_*, *_sim8_*, *_esp_*, *_cc_*). In every history. Which bytes end a line of the Espressif driver depends on the state; C35_esp_end gives the exact rule."
  },
  {
   "property": "C36",
   "status": "proved",
   "theorems": [
    "C36_sim7_open",
    "C36_reply",
    "C36_sim8_open"
   ],
   "note": "Proved for both drivers the property is about (theorems *_sim7_* and *_sim8_*)."
  },
  {
   "property": "C37",
   "status": "proved",
   "theorems": [
    "C37_sim7_refuted",
    "C37_sim8_refuted"
   ],
   "note": "Proved for both drivers the property is about (theorems *_sim7_* and *_sim8_*). The property as stated is false; the theorems give a session ending in the overflow and (C51) show that it is the only undefined behaviour."
  },
  {
   "property": "C38",
   "status": "proved",
   "theorems": [
    "C38_sim7_refuted",
    "C38_sim8_refuted"
   ],
   "note": "Proved for both drivers the property is about (theorems *_sim7_* and *_sim8_*). The property as stated is false; the theorems show that a malformed reply leaves the driver silent for ever."
  },
  {
   "property": "C39",
   "status": "proved",
   "theorems": [
    "C39_cc_rssi",
    "C39_cc_refuted",
    "C39_esp_rssi",
    "C39_esp_value",
    "C39_esp_refuted",
    "C39_sim7_rssi",
    "C39_conversion",
    "C39_reply",
    "C39_sim8_rssi",
    "C39_sim8_refuted"
   ],
   "note": "All four drivers (theorems *_sim7_*, *_sim8_*, *_esp_*, *_cc_*). SIM7x00: C39_conversion, C39_reply, C39_sim7_rssi. False for the SIM800 after a stray line, for the CC1352P7 (no conversion, may report the pending value) and for the Espressif driver with a comma in, or a long, network name; the exact value reported is proved for each (*_rssi, C39_esp_value)."
  },
  {
   "property": "C40",
   "status": "proved",
   "theorems": [
    "C40_sim7_id",
    "C40_sim8_id"
   ],
   "note": "Proved for both drivers the property is about (theorems *_sim7_* and *_sim8_*). For the SIM800, under the condition that no stray line arrives while AT+CSQ is outstanding (see C59)."
  },
  {
   "property": "C41",
   "status": "proved",
   "theorems": [
    "C41_sim7_bounded",
    "C41_sim8_bounded"
   ],
   "note": "Proved for both drivers the property is about (theorems *_sim7_* and *_sim8_*)."
  },
  {
   "property": "C42",
   "status": "proved",
   "theorems": [
    "C42_sim7_refuted",
    "C42_sim8_refuted"
   ],
   "note": "Proved for both drivers the property is about (theorems *_sim7_* and *_sim8_*). The property as stated is false; the theorems give the sessions. A single query between exchanges is answered correctly: C81."
  },
  {
   "property": "C43",
   "status": "proved",
   "theorems": [
    "C43_cc_request",
    "C43_cc_notice",
    "C43_cc_interrupt_refuted",
    "C43_esp_request",
    "C43_esp_notice",
    "C43_esp_interrupt_refuted",
    "C43_sim7_request",
    "C43_sim7_interrupt_refuted",
    "C43_sim8_request",
    "C43_sim8_interrupt_refuted"
   ],
   "note": "All four drivers (theorems *_sim7_*, *_sim8_*, *_esp_*, *_cc_*). Holds for calls without interrupts in between; with an interrupt between two looks at the free space the request may be for 0 bytes (*_interrupt_refuted). All other bounds hold in every history."
  },
  {
   "property": "C44",
   "status": "proved",
   "theorems": [
    "C44_cc_payload",
    "C44_esp_payload",
    "C44_sim7_payload",
    "C44_sim8_payload"
   ],
   "note": "All four drivers (theorems *_sim7_*, *_sim8_*, *_esp_*, *_cc_*). In every history; the payload is complete if no byte was lost (clean). The order is C53."
  },
  {
   "property": "C45",
   "status": "proved",
   "theorems": [
    "C45_cc_announce",
    "C45_cc_zero_refuted",
    "C45_esp_announce",
    "C45_esp_zero_refuted",
    "C45_sim7_announce",
    "C45_sim7_zero_refuted",
    "C45_sim8_announce",
    "C45_sim8_zero_refuted"
   ],
   "note": "All four drivers (theorems *_sim7_*, *_sim8_*, *_esp_*, *_cc_*). False as stated: with a serial transmit buffer of 22 bytes every announcement is one of 0 bytes (*_zero_refuted). The announced number is given exactly (*_announce)."
  },
  {
   "property": "C46",
   "status": "proved",
   "theorems": [
    "C46_cc_unlocked",
    "C46_esp_unlocked",
    "C46_sim7_locked",
    "C46_sim7_quiet",
    "C46_sim7_unlocked",
    "C46_sim8_locked",
    "C46_sim8_quiet",
    "C46_sim8_unlocked"
   ],
   "note": "Proved for both drivers with serialLock() (theorems *_sim7_* and *_sim8_*); the CC1352P7 driver has no serialLock(), its raw access never does anything (C46_cc_unlocked)."
  },
  {
   "property": "C47",
   "status": "proved",
   "theorems": [
    "C47_cc_paired",
    "C47_esp_paired",
    "C47_sim7_paired",
    "C47_sim7_close_refuted",
    "C47_sim8_paired",
    "C47_sim8_close_refuted"
   ],
   "note": "All four drivers (theorems *_sim7_*, *_sim8_*, *_esp_*, *_cc_*). *_paired: holds in every history with the lines that may end a wait listed. *_close_refuted (SIM drivers): a close notice ends the wait for another reply."
  },
  {
   "property": "C48",
   "status": "proved",
   "theorems": [
    "C48_cc_edges",
    "C48_cc_undocumented",
    "C48_esp_edges",
    "C48_esp_undocumented",
    "C48_sim7_edges",
    "C48_sim7_undocumented",
    "C48_sim8_edges",
    "C48_sim8_undocumented"
   ],
   "note": "All four drivers (theorems *_sim7_*, *_sim8_*, *_esp_*, *_cc_*). *_edges: every transition in every history; the transitions missing from the header's diagram are listed and shown to occur (*_undocumented)."
  },
  {
   "property": "C49",
   "status": "proved",
   "theorems": [
    "C49_cc_commands",
    "C49_cc_cut_refuted",
    "C49_esp_commands",
    "C49_esp_join",
    "C49_esp_names",
    "C49_esp_cut_refuted",
    "C49_sim7_commands",
    "C49_sim7_cut_refuted",
    "C49_sim8_commands",
    "C49_sim8_cut_refuted"
   ],
   "note": "All four drivers (theorems *_sim7_*, *_sim8_*, *_esp_*, *_cc_*). *_commands: the exact commands in every history; complete if they fit the space left. *_cut_refuted: the driver only checks for 20 bytes, longer commands are cut."
  },
  {
   "property": "C50",
   "status": "proved",
   "theorems": [
    "C50_cc_confirmed",
    "C50_esp_confirmed",
    "C50_sim7_confirmed",
    "C50_sim8_confirmed"
   ],
   "note": "All four drivers (theorems *_sim7_*, *_sim8_*, *_esp_*, *_cc_*). In every history of calls and interrupts."
  },
  {
   "property": "C51",
   "status": "proved",
   "theorems": [
    "C51_cc_safe",
    "C51_cc_refuted",
    "C51_cc_histories",
    "C51_cc_actions",
    "C51_esp_safe",
    "C51_esp_refuted",
    "C51_esp_histories",
    "C51_esp_actions",
    "C51_sim7_safe",
    "C51_sim7_histories",
    "C51_sim7_actions",
    "C51_sim8_safe",
    "C51_sim8_histories",
    "C51_sim8_actions"
   ],
   "note": "All four drivers (theorems *_sim7_*, *_sim8_*, *_esp_*, *_cc_*). SIM drivers: undefined behaviour only by the DNS reply of C37. CC1352P7, Espressif: only by the calls in C51_cc_safe and C51_esp_safe (getMac() before requestMac(); connect() before setSSID() and setPassword()), and these do reach it (*_refuted)."
  },
  {
   "property": "C52",
   "status": "proved",
   "theorems": [
    "C52_cc_fresh",
    "C52_cc_prepared",
    "C52_cc_opens",
    "C52_cc_closes",
    "C52_esp_fresh",
    "C52_esp_prepared",
    "C52_esp_opens",
    "C52_esp_closes",
    "C52_sim7_fresh",
    "C52_sim7_prepared",
    "C52_sim7_opens",
    "C52_sim7_closes",
    "C52_sim8_fresh",
    "C52_sim8_prepared",
    "C52_sim8_opens",
    "C52_sim8_closes"
   ],
   "note": "For each driver: from a freshly built driver (or after a close), any calls setting the parameters, connect() returning true, and a modem that answers each command with its success reply (interleaved with any other calls that only look, runs without input, meaningless lines such as echoes, any split of the bytes, interrupts at any time) gives exactly the documented commands with the configured parameters and isConnected(); disconnect() likewise gives the closing commands and isIdle(), after which connect() works again. Needs N bytes of free transmit space at each run(), N at least the length of each command (and 20). Espressif/CC1352P7 additionally: the uninitialised MAC buffer does not look like a MAC request (only possible with an unsigned char)."
  },
  {
   "property": "C53",
   "status": "proved",
   "theorems": [
    "C53_cc_sent",
    "C53_cc_interrupt_refuted",
    "C53_esp_sent",
    "C53_esp_interrupt_refuted",
    "C53_sim7_sent",
    "C53_sim7_interrupt_refuted",
    "C53_sim8_sent",
    "C53_sim8_interrupt_refuted"
   ],
   "note": "All four drivers (theorems *_sim7_*, *_sim8_*, *_esp_*, *_cc_*). Holds in every history in which no byte is lost by the port and no interrupt occurs during an announcing run(); *_interrupt_refuted shows that the last condition is needed."
  },
  {
   "property": "C54",
   "status": "proved",
   "theorems": [
    "C54_cc_received",
    "C54_esp_received",
    "C54_esp_received_any",
    "C54_sim7_received",
    "C54_sim8_received"
   ],
   "note": "All four drivers (theorems *_sim7_*, *_sim8_*, *_esp_*, *_cc_*). In every history in which no reply announced more than was asked for. Espressif: for TCP connections, and for all types if what is announced fits the read buffer (C54_esp_received_any)."
  },
  {
   "property": "C55",
   "status": "proved",
   "theorems": [
    "C55_cc_wrap_refuted",
    "C55_cc_overrun_refuted",
    "C55_cc_starve_refuted",
    "C55_esp_wrap_refuted",
    "C55_esp_overrun_refuted",
    "C55_esp_starve_refuted",
    "C55_esp_deaf_refuted",
    "C55_sim7_wrap_refuted",
    "C55_sim7_overrun_refuted",
    "C55_sim7_starve_refuted",
    "C55_sim8_wrap_refuted",
    "C55_sim8_overrun_refuted",
    "C55_sim8_starve_refuted"
   ],
   "note": "All four drivers (theorems *_sim7_*, *_sim8_*, *_esp_*, *_cc_*). False as stated. *_overrun_refuted: more data than the read buffer has room for overwrites received data. *_starve_refuted: a length beyond the serial receive buffer blocks the driver in every continuation. C55_esp_deaf_refuted: a datagram arriving while a reply is awaited does as well. A piece larger than asked for wraps the count of bytes still to fetch, so that the driver asks for data nobody reported (the wrap theorems)."
  },
  {
   "property": "C56",
   "status": "proved",
   "theorems": [
    "C56_cc_refuted",
    "C56_esp_refuted",
    "C56_sim7_refuted",
    "C56_sim8_refuted"
   ],
   "note": "All four drivers (theorems *_sim7_*, *_sim8_*, *_esp_*, *_cc_*). False as stated: the driver stays in serialError and sends nothing in every continuation without the listed help (*_refuted)."
  },
  {
   "property": "C57",
   "status": "proved",
   "theorems": [
    "C57_cc_closed",
    "C57_esp_closed",
    "C57_sim7_refuted",
    "C57_sim8_closed"
   ],
   "note": "All four drivers (theorems *_sim7_*, *_sim8_*, *_esp_*, *_cc_*). SIM800, CC1352P7, Espressif: proved for an idle connection (*_closed). False for the SIM7x00, which ignores the notice for ever (C57_sim7_refuted)."
  },
  {
   "property": "C58",
   "status": "proved",
   "theorems": [
    "C58_cc_refuted",
    "C58_cc_request",
    "C58_cc_kept",
    "C58_cc_sent",
    "C58_cc_answer",
    "C58_esp_refuted",
    "C58_esp_request",
    "C58_esp_kept",
    "C58_esp_sent",
    "C58_esp_answer"
   ],
   "note": "Both drivers with requestMac() (theorems *_esp_*, *_cc_*). False where plain char is signed: the query is never sent (*_refuted). Where it is unsigned the request is kept until the query is sent, the next run() at leisure sends it, and getMac() returns an address received since."
  },
  {
   "property": "C59",
   "status": "proved",
   "theorems": [
    "C59_cc_refuted",
    "C59_cc_kept",
    "C59_esp_kept",
    "C59_sim7_rssi",
    "C59_sim7_request",
    "C59_sim8_refuted",
    "C59_sim8_request",
    "C59_sim8_session"
   ],
   "note": "All four drivers (theorems *_sim7_*, *_sim8_*, *_esp_*, *_cc_*). Holds for the SIM7x00 and the Espressif driver (there for the MAC address). False for the SIM800 (C59_sim8_refuted) and the CC1352P7 (C59_cc_refuted); the exact conditions are proved."
  },
  {
   "property": "C60",
   "status": "proved",
   "theorems": [
    "C60_detected",
    "C60_driver",
    "C60_asks",
    "C60_asks_version",
    "C60_complete"
   ],
   "note": "ModemDetect. C60_detected and C60_driver: in every history of calls, interrupts and open() results. C60_asks, C60_asks_version and C60_complete give the converse: questions sent in full when the transmit buffer has room, and an identification line that is buffered is recognised."
  },
  {
   "property": "C61",
   "status": "proved",
   "theorems": [
    "C61_safe",
    "C61_refuted",
    "C61_reached"
   ],
   "note": "False for large receive buffers. C61_safe: run() is memory safe in every history while the receive buffer is smaller than 65535 bytes. C61_refuted and C61_reached: with 65535 buffered bytes the 16 bit array size wraps to 0 and run() writes outside the array, reachable for every larger buffer."
  },
  {
   "property": "C62",
   "status": "proved",
   "theorems": [
    "C62_stable",
    "C62_forwards",
    "C62_error_forever",
    "C62_refuted"
   ],
   "note": "False before the driver is constructed. C62_stable, C62_forwards: holds in every later history once getDetectedModem(...) has constructed the driver. C62_refuted, C62_error_forever: before that a failing open() takes the result back and it never returns."
  },
  {
   "property": "C63",
   "status": "proved",
   "theorems": [
    "C63_stm32_rate",
    "C63_stm32_refuted",
    "C63_unix_rate",
    "C63_unix_refuted"
   ],
   "note": "False on both ports: a supported rate with unsupported data bits returns false but has already changed the rate. The theorems give the exact effect."
  },
  {
   "property": "C64",
   "status": "proved",
   "theorems": [
    "C64_stm32_accepts",
    "C64_unix_accepts",
    "C64_unix_missing_refuted",
    "C64_unix_in_force"
   ],
   "note": "UnixSerial: the accepted set is exact; two rates of the header (4800 and 500000) are missing, see C64_unix_missing_refuted. Stm32Uart: exact."
  },
  {
   "property": "C65",
   "status": "proved",
   "theorems": [
    "C65_unix_failing",
    "C65_unix_leak_refuted",
    "C65_unix_open_refuted",
    "C65_unix_careful",
    "C65_unix_close",
    "C65_unix_close_once"
   ],
   "note": "False: open() leaks the descriptor when a call behind the tty test fails, and isOpen() stays true with no descriptor. C65_unix_careful and C65_unix_close: no leak in histories avoiding these."
  },
  {
   "property": "C66",
   "status": "proved",
   "theorems": [
    "C66_stm32_table",
    "C66_stm32_finds",
    "C66_stm32_dead_refuted",
    "C66_stm32_full_refuted"
   ],
   "note": "C66_stm32_finds: holds while at most E_MULTITON_MAX_INSTANCES drivers are constructed and none destroyed. Refuted for further instances and after destruction."
  },
  {
   "property": "C67",
   "status": "proved",
   "theorems": [
    "C67_stm32",
    "C67_stm32_calls",
    "C67_stm32_drains",
    "C67_stm32_before_refuted",
    "C67_stm32_close_refuted"
   ],
   "note": "Holds after the first open() if the HAL calls keep the interrupt enable bits (hypothesis keeps). Refuted for bytes written before the first open() and for bytes pending over close() and open() with a HAL that clears the bits."
  },
  {
   "property": "C68",
   "status": "proved",
   "theorems": [
    "C68_sim7",
    "C68_sim800",
    "C68_espressif",
    "C68_cc1352",
    "C68_pending_mac_request_refuted"
   ],
   "note": ""
  },
  {
   "property": "C69",
   "status": "proved",
   "theorems": [
    "C69_cc_refuted",
    "C69_esp_type",
    "C69_sim7_refuted",
    "C69_sim8_refuted"
   ],
   "note": "All four drivers (theorems *_sim7_*, *_sim8_*, *_esp_*, *_cc_*). False for the SIM7x00, SIM800 and CC1352P7 drivers, which open a TCP connection (*_refuted); the Espressif driver requests SSL (C69_esp_type)."
  },
  {
   "property": "C70",
   "status": "proved",
   "theorems": [
    "C70_cc_sends",
    "C70_cc_rounds",
    "C70_esp_sends",
    "C70_esp_rounds",
    "C70_sim7_sends",
    "C70_sim7_rounds",
    "C70_sim8_sends",
    "C70_sim8_rounds"
   ],
   "note": "All four drivers (theorems *_sim7_*, *_sim8_*, *_esp_*, *_cc_*). The announcement and payload must fit the free transmit space N at each run() (22 + k <= N); with less space and interrupts during the announcement a part may be announced that is larger than what is sent (finding 11)."
  },
  {
   "property": "C71",
   "status": "proved",
   "theorems": [
    "C71_cc_refuted",
    "C71_es_refuted",
    "C71_sim7_refuted",
    "C71_sim8_refuted"
   ],
   "note": "False for every driver, proved as *_refuted: for every payload and every state after the announcement, if a query was requested in the meantime, the run() that reads '>' sends the query in place of the announced bytes; none of the payload is sent (with sessions)."
  },
  {
   "property": "C72",
   "status": "proved",
   "theorems": [
    "C72_cc_refuted",
    "C72_es_refuted",
    "C72_sim7_refuted",
    "C72_sim8_refuted"
   ],
   "note": "False for every driver, proved as *_refuted by a session: two disconnect() calls, the closing dialogue, an accepted connect() answered with success - and the driver closes the new connection at once."
  },
  {
   "property": "C73",
   "status": "proved",
   "theorems": [
    "C73_cc_refuted",
    "C73_cc_unasked",
    "C73_es_unasked",
    "C73_es_never",
    "C73_sim7_unasked",
    "C73_sim7_never",
    "C73_sim8_refuted",
    "C73_sim8_unasked"
   ],
   "note": "True for SIM7x00 and Espressif (C73_sim7_*, C73_es_*): from any state without connection and request, whatever is called except an accepted connect() and whatever arrives, no connection is reported and only queries and resets are sent. False for SIM800 and CC1352P7: an error line while idle makes the next run() open a connection (C73_sim8_refuted, C73_cc_refuted). Without error lines it is proved for these too (C73_sim8_unasked, C73_cc_unasked)."
  },
  {
   "property": "C74",
   "status": "proved",
   "theorems": [
    "C74_cc_error",
    "C74_es_error",
    "C74_sim7_error",
    "C74_sim7_blocked_refuted",
    "C74_sim8_error",
    "C74_sim8_no_connection"
   ],
   "note": "SIM7x00 when a reply string is awaited; false while the reply to AT+CIPRXGET=2 is awaited, where ERROR is not noticed (C74_sim7_blocked_refuted). SIM800: next quiet run() sends AT+CIPSHUT; the same after \"0, CONNECT FAIL\" (C74_sim8_no_connection). CC1352P7: AT+CIPCLOSE. Espressif: AT+RST, awaiting ready."
  },
  {
   "property": "C75",
   "status": "proved",
   "theorems": [
    "C75_cc_fetches",
    "C75_cc_readable",
    "C75_esp_fetches",
    "C75_esp_readable",
    "C75_esp_datagrams",
    "C75_esp_datagram_taken",
    "C75_esp_datagrams_readable",
    "C75_sim7_fetches",
    "C75_sim7_readable",
    "C75_sim8_fetches",
    "C75_sim8_readable"
   ],
   "note": "All four drivers (theorems *_sim7_*, *_sim8_*, *_cc_*, *_esp_*; Espressif: C75_esp_fetches for TCP connections, C75_esp_datagrams for the others, where the module sends without being asked). At the run() that asks for each piece no interrupt may add received bytes between the checks of the free space (e_sch e = [] in the definition of chunks), 40 bytes of transmit space are needed (20 for datagrams), and n must fit the read buffer."
  },
  {
   "property": "C76",
   "status": "proved",
   "theorems": [
    "C76_cc_deaf_refuted",
    "C76_esp_deaf_refuted",
    "C76_sim7_deaf_refuted",
    "C76_sim8_deaf_refuted"
   ],
   "note": "False for every driver, proved as *_refuted in general form: after a header that announces zero bytes, no byte is read any more in any later history (with disconnect(), connect(), write(), any modem bytes) unless resetStates() is called or the port is closed. Each theorem has a session meeting its hypotheses."
  },
  {
   "property": "C77",
   "status": "proved",
   "theorems": [
    "C77_unix_wire",
    "C77_unix_closed",
    "C77_unix_streams",
    "C77_unix_total",
    "C77_unix_run",
    "C77_unix_isopen_refuted"
   ],
   "note": "Proved apart from the last sentence, which is false: C77_unix_isopen_refuted shows for every port that after an open() failing behind the tty test bytes pass although isOpen() is false; C77_unix_wire gives the exact condition."
  },
  {
   "property": "C78",
   "status": "proved",
   "theorems": [
    "C78_linux_tick",
    "C78_linux_elapsed",
    "C78_linux_timeout",
    "C78_linux_time32_refuted",
    "C78_mbed_tick"
   ],
   "note": "Proved for a 64 bit time_t and for mbed; C78_linux_time32_refuted gives the exact condition under which the Linux function is undefined with a 32 bit time_t."
  },
  {
   "property": "C79",
   "status": "proved",
   "theorems": [
    "C79_cc_fresh",
    "C79_cc_prepared",
    "C79_cc_deal",
    "C79_cc_sessions",
    "C79_esp_fresh",
    "C79_esp_prepared",
    "C79_esp_deal",
    "C79_esp_sessions",
    "C79_sim7_fresh",
    "C79_sim7_prepared",
    "C79_sim7_deal",
    "C79_sim7_sessions",
    "C79_sim8_fresh",
    "C79_sim8_prepared",
    "C79_sim8_deal",
    "C79_sim8_sessions"
   ],
   "note": "All four drivers (Espressif: TCP connections): sessions of any length, composed of the handshakes (C52), sending (C70) and fetching (C75), with the parts of the state that these theorems left open (leftover request flags, buffers, counters) carried along. Hypotheses: the modem answers as the dialogues say, and N >= 40 bytes are free in the port's transmit buffer whenever run() is called; exceptions are findings C71, C72, C76."
  },
  {
   "property": "C80",
   "status": "proved",
   "theorems": [
    "C80_sim7_lent",
    "C80_sim7_refuted",
    "C80_sim8_lent",
    "C80_sim8_refuted"
   ],
   "note": "Between the parts of a session (no reply awaited, no payload being received) the property holds: C80_sim7_lent, C80_sim8_lent. In general it is false: serialLock() also succeeds while payload is being received, then serialRead() gets the connection's data and read() the end of the modem's reply (C80_sim7_refuted, C80_sim8_refuted). Only the SIM drivers have serialLock()."
  },
  {
   "property": "C81",
   "status": "proved",
   "theorems": [
    "C81_sim7_answered",
    "C81_sim8_answered"
   ],
   "note": "Proved for both drivers the property is about (C81_sim7_answered, C81_sim8_answered), for every state between the parts of a session (C79), every kind and every answer. Sessions (C79), sending, receiving and lending the port go on afterwards because all of them start from the same states."
  },
  {
   "property": "C82",
   "status": "proved",
   "theorems": [
    "C82_sim7_measured",
    "C82_sim8_measured"
   ],
   "note": "Proved for both drivers the property is about (C82_sim7_measured, C82_sim8_measured), for every state between the parts of a session (C79) and every value the modem can report (up to 2^31 - 1)."
  },
  {
   "property": "C83",
   "status": "proved",
   "theorems": [
    "C83_cc_lost_refuted",
    "C83_esp_lost_refuted"
   ],
   "note": "The property is false on the Espressif and CC1352P7 drivers (finding 25): after the request for the data nothing is sent and isConnected() stays true, whatever is called and whatever arrives, until the announcement of the data or an error line is read or resetStates() is called. Proved for every history; sessions with CLOSED (and WIFI DISCONNECT), disconnect() and connect() are the witnesses. The SIM drivers are not covered by this claim."
  }
 ]
}