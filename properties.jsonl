{"id": "C01", "title": "A frame is published exactly when a well-formed frame has just ended", "statement": "After any byte history, ready() is true if and only if the history ends with STX, one or more groups LF..CR each with a correct checksum and fitting the buffer, then ETX; the bytes exposed are then exactly the groups of that frame (first separator split, trailing dots dropped), stamped with the time of its STX.", "quantifier": "every finite byte history, every initial content of the buffer, every clock", "why_tests_cant": "the automaton can be reached through unboundedly many histories of garbage, restarts and truncated frames; tests sample a dozen", "anchors": ["src/teleinfo.h: TeleinfoDecoder::put", "src/teleinfo.h: TeleinfoDecoder::ready"]}
{"id": "C02", "title": "Encode/decode round trip and resynchronisation", "statement": "Whatever was received before, when a meter sends a frame made of well-formed groups (label, value) that fits the buffer, iterating with get_value_next yields exactly those labels and values, in order, trailing dots of values removed.", "quantifier": "every earlier byte history, every list of well-formed groups, every separator character", "why_tests_cant": "ranges over all labels, values, group counts and all preceding garbage", "anchors": ["src/teleinfo.h: TeleinfoDecoder::put", "src/teleinfo.h: Teleinfo::get_value_next"]}
{"id": "C03", "title": "The decoder and its accessors never leave the frame buffer", "statement": "No sequence of received bytes, and no accessor called at any moment (get_value, get_value_int, get_value_next, get_frame_ascii, copy_from), reads or writes outside the 350-byte buffer or depends on bytes of the buffer that the current frame did not write.", "quantifier": "every byte history, every initial buffer content, every label, every point in the history", "why_tests_cant": "memory safety on all inputs; tests run without sanitizers and never approach the boundary sizes systematically", "anchors": ["src/teleinfo.h: TeleinfoDecoder::put", "src/teleinfo.h: Teleinfo::get_value", "src/teleinfo.h: Teleinfo::get_value_next", "src/teleinfo.h: Teleinfo::get_frame_ascii", "src/teleinfo.h: Teleinfo::copy_from"]}
{"id": "C04", "title": "A corrupted byte makes the frame unusable", "statement": "If one byte of a valid frame is altered in transit (in a label, first separator, value, second separator or checksum) the frame is not published.", "quantifier": "every valid frame, every position in a group, every replacement byte, every preceding history", "why_tests_cant": "256 replacements x every position x every frame", "anchors": ["src/teleinfo.h: TeleinfoDecoder::put"]}
{"id": "C05", "title": "Lookup by label returns the first group carrying that label", "statement": "get_value(label) returns the value of the first received group whose label is exactly the one asked, the given default if there is none, and agrees with the iteration order of get_value_next; an interrupted lookup is never confused by a label that is a prefix or suffix of another.", "quantifier": "every published frame, every label", "why_tests_cant": "all labels against all frames", "anchors": ["src/teleinfo.h: Teleinfo::get_value", "src/teleinfo.h: Teleinfo::get_value_next"]}
{"id": "C06", "title": "Integer conversion of values", "statement": "get_value_int returns the decimal value (modulo 2^32) of an all-digit value and the default otherwise; stripping leading zeros keeps the number and never produces an empty or zero-prefixed number from a non-empty one.", "quantifier": "every value string", "why_tests_cant": "all strings of all lengths", "anchors": ["src/teleinfo.h: Teleinfo::get_value_int", "src/teleinfo.h: Teleinfo::get_integer"]}
{"id": "C07", "title": "The published reading is always the last valid frame", "statement": "Between two complete valid frames the data seen by every reader (JSON pages, label pages, notifications) is exactly the last valid frame received; garbage, interrupted (EOT), truncated or corrupt frames never change it.", "quantifier": "every byte history", "why_tests_cant": "all histories and all interruption points", "anchors": ["src/tic.cpp: tic_decode", "src/teleinfo.h: Teleinfo::copy_from", "src/teleinfo.h: TeleinfoDecoder::put"]}
{"id": "C08", "title": "Decoding does not depend on the signedness of char", "statement": "The decoder behaves identically whether plain char is signed (PC tests) or unsigned (ESP8266), for every byte stream including 8-bit bytes.", "quantifier": "every byte history", "why_tests_cant": "tests only run on one of the two platforms", "anchors": ["src/teleinfo.h: TeleinfoDecoder::put"]}
{"id": "C09", "title": "The ASCII dump shows complete lines and stays in its buffer", "statement": "get_frame_ascii writes only inside the destination (size >= 2), always NUL-terminates it, and yields either an empty string or exactly the 'LABEL VALUE' lines of the frame (when the buffer is large enough), never a cut line.", "quantifier": "every published frame, every destination size >= 2", "why_tests_cant": "all frames x all sizes", "anchors": ["src/teleinfo.h: Teleinfo::get_frame_ascii", "src/tic.cpp: tic_dump"]}
{"id": "C10", "title": "Power estimate equals the slope of the energy index over the last minute", "statement": "watt() returns floor(3600000 * dWh / dt_ms) between the newest sample and the oldest sample recorded not more than the period before it (among the last 48, at least two distinct dates), and 0 when there is no such pair; it never divides by zero and never reads outside its ring.", "quantifier": "every sequence of received frames and clock values, every period", "why_tests_cant": "histories longer than the ring, clock jumps, wrap-around", "anchors": ["src/teleinfo.h: Teleinfo::watt", "src/teleinfo.h: Teleinfo::copy_from"]}
{"id": "C11", "title": "/json is a valid JSON object carrying the frame", "statement": "The /json body (also the SSE event and the POST body) parses as a JSON object whose members are timestamp, seconds, the notification type if any, then each received label with its value (numbers without leading zeros for all-digit values, strings otherwise).", "quantifier": "every published frame, every time", "why_tests_cant": "all label/value contents", "anchors": ["src/tic.cpp: tic_get_json_dict_notif", "src/jsonbuilder.h: JSONBuilder"]}
{"id": "C12", "title": "/tinfo.json is a valid JSON array carrying the frame", "statement": "The /tinfo.json body parses as a JSON array of {na,va} objects: timestamp, watt, then each received group in order.", "quantifier": "every published frame, every time", "why_tests_cant": "all label/value contents", "anchors": ["src/tic.cpp: tic_get_json_array", "src/jsonbuilder.h: JSONTableBuilder"]}
{"id": "C13", "title": "/config.json is valid JSON and shows the stored configuration", "statement": "The /config.json body parses as a JSON object and each member equals the stored configuration field of that name.", "quantifier": "every configuration content", "why_tests_cant": "all field contents, including quotes and backslashes a user may put in a password", "anchors": ["src/config.cpp: config_get_json", "src/jsonbuilder.h: JSONBuilder"]}
{"id": "C14", "title": "Tariff-period notification fires exactly on changes", "statement": "With the PTEC trigger enabled, a PTEC notification is sent for a frame exactly when its PTEC differs from the PTEC of the previous frame that had one, and never for the first.", "quantifier": "every sequence of frames", "why_tests_cant": "all sequences and all PTEC values", "anchors": ["src/tic.cpp: http_notif_periode_en_cours"]}
{"id": "C15", "title": "Threshold notifications follow a hysteresis", "statement": "With the threshold trigger enabled, HAUT and BAS notifications strictly alternate starting with HAUT; HAUT is sent at the first frame whose PAPP reaches seuil_haut since the last BAS, BAS at the first frame at or below seuil_bas since the last HAUT.", "quantifier": "every sequence of frames and PAPP values, every pair of thresholds", "why_tests_cant": "all sequences of readings", "anchors": ["src/tic.cpp: http_notif_seuils"]}
{"id": "C16", "title": "Overload notifications fire exactly on ADPS edges", "statement": "With the ADPS trigger enabled, ADPS is sent exactly when the label appears in a frame and was absent from the previous one, NORM exactly when it disappears.", "quantifier": "every sequence of frames", "why_tests_cant": "all sequences", "anchors": ["src/tic.cpp: http_notif_adps"]}
{"id": "C17", "title": "URL template expansion", "statement": "In the notification URL, ~LABEL~ and $LABEL are replaced by the value of the label (special labels type, notif, date, timestamp, seconds, chipid case-insensitively), ~~ and $$ by ~ and $, and all other text is copied unchanged.", "quantifier": "every template built from literals, escapes and labels; every frame", "why_tests_cant": "all templates", "anchors": ["src/tic.cpp: http_notif", "src/tic.cpp: http_add_value_ex"]}
{"id": "C18", "title": "URL template expansion never reads outside the URL field", "statement": "Whatever URL the user stored, expansion reads only the bytes of the URL field up to its terminator.", "quantifier": "every URL content of at most 150 bytes", "why_tests_cant": "all URLs, including those ending in an unfinished label at full length", "anchors": ["src/tic.cpp: http_notif", "src/config.h: HttpreqConfig"]}
{"id": "C19", "title": "No request is sent to a service that is not configured", "statement": "A frame triggers an HTTP request to a service only if that service has a host; periodic requests only if host, port and frequency are all set; at most one request per trigger and per frame, in the order PTEC, thresholds, ADPS, MAJ, Jeedom, Emoncms.", "quantifier": "every configuration, frame and timer state", "why_tests_cant": "all combinations", "anchors": ["src/tic.cpp: tic_notifs", "src/tic.cpp: tic_make_timers", "src/tic.cpp: jeedom_notif", "src/tic.cpp: emoncms_notif"]}
{"id": "C20", "title": "Jeedom request carries every group once", "statement": "The Jeedom URL is path?api=key followed by &label=value for each received group in order, the ADCO value being replaced by the configured meter id if one is set.", "quantifier": "every frame and configuration", "why_tests_cant": "all frames", "anchors": ["src/tic.cpp: jeedom_notif"]}
{"id": "C21", "title": "Emoncms payload is numeric for the standard labels", "statement": "The Emoncms payload lists every group once in order as label:number, with the documented numeric codes for OPTARIF, HHPHC and PTEC (distinct tariff periods get distinct codes) and integers without leading zeros for digit values.", "quantifier": "every frame", "why_tests_cant": "all frames", "anchors": ["src/tic.cpp: tic_emoncms_data"]}
{"id": "C22", "title": "Configuration survives save and restart", "statement": "After config_save reports success and the EEPROM commit took effect, a restart restores exactly the same configuration; saving always succeeds.", "quantifier": "every configuration content", "why_tests_cant": "all 1024-byte contents", "anchors": ["src/config.cpp: config_save", "src/config.cpp: config_read", "src/config.cpp: config_setup", "src/config.cpp: crc16Update"]}
{"id": "C23", "title": "Corrupted configuration is never used", "statement": "If the stored configuration image is damaged within any 16 consecutive bits, restart detects it and falls back to factory defaults.", "quantifier": "every stored configuration, every position, every damage pattern of at most 16 consecutive bits", "why_tests_cant": "all positions x all patterns", "anchors": ["src/config.cpp: config_read", "src/config.cpp: crc16Update"]}
{"id": "C24", "title": "A blank or cleared EEPROM gives factory settings", "statement": "On a blank (0xFF) or cleared (0x00) EEPROM, setup yields the factory configuration (hostname WifInfo-<chip id>, default ports and URLs, no Wi-Fi credentials, no password) and stores it so that the next start is clean.", "quantifier": "every chip id, every previous RAM content", "why_tests_cant": "all chip ids", "anchors": ["src/config.cpp: config_setup", "src/config.cpp: config_reset", "src/cli.cpp: esp reset"]}
{"id": "C25", "title": "Configuration strings are always terminated", "statement": "Whatever bytes the EEPROM holds and whatever forms are posted, every string field of the configuration is NUL-terminated inside its own array at all times after start-up.", "quantifier": "every EEPROM content, every sequence of form posts, saves and restarts", "why_tests_cant": "all contents and histories", "anchors": ["src/config.cpp: config_securize_cstrings", "src/config.cpp: config_handle_form", "src/strncpy_s.h"]}
{"id": "C26", "title": "Posted settings are validated and do not overflow their fields", "statement": "After a form post every numeric setting is within its documented range, every string setting is the posted value cut to the field size, every checkbox reflects its presence, and no other byte of the configuration is modified.", "quantifier": "every form content", "why_tests_cant": "all argument lists", "anchors": ["src/config.cpp: config_handle_form", "src/config.cpp: validate_int", "src/strncpy_s.h"]}
{"id": "C27", "title": "A restricted client cannot change Wi-Fi, OTA or login settings", "statement": "A form post by a restricted client (behind a reverse proxy) leaves ssid, psk, host, ap_psk, ota_auth, ota_port, username and password unchanged.", "quantifier": "every form content, every configuration", "why_tests_cant": "all forms", "anchors": ["src/config.cpp: config_handle_form", "src/webserver.cpp: webserver_setup"]}
{"id": "C28", "title": "A restricted client cannot read the secrets", "statement": "Responses to restricted clients are independent of ssid, psk, host, ap_psk, ota_auth, ota_port, username and password.", "quantifier": "every pair of configurations differing only in those fields, every page", "why_tests_cant": "non-interference relates pairs of executions", "anchors": ["src/config.cpp: config_get_json", "src/sys.cpp: sys_get_info_json", "src/sys.cpp: sys_wifi_scan_json", "src/filesystem.cpp: fs_get_json", "src/webserver.cpp: server_send_json"]}
{"id": "C29", "title": "A reported successful save is really stored", "statement": "When the form handler answers 200 OK, the new configuration is in flash and survives a power cut.", "quantifier": "every configuration, every outcome of the flash commit", "why_tests_cant": "flash failure is not exercised by tests", "anchors": ["src/config.cpp: config_save", "src/config.cpp: config_handle_form"]}
{"id": "C30", "title": "A power cut while saving never yields a half-written configuration", "statement": "If power is cut at any point of config_save, the next start uses the old configuration, the new one, or the factory defaults.", "quantifier": "every crash point, every old and new configuration", "why_tests_cant": "all crash points", "anchors": ["src/config.cpp: config_save", "src/config.cpp: config_setup"]}
{"id": "C31", "title": "The Python EEPROM tool and the firmware agree on the layout", "statement": "An image produced by tools/eeprom.py for a configuration is accepted by the firmware, which then sees exactly those settings; an image saved by the firmware is read back by the tool with the same settings.", "quantifier": "every configuration whose strings fit", "why_tests_cant": "all configurations", "anchors": ["tools/eeprom.py: write_eeprom", "tools/eeprom.py: read_eeprom", "src/config.h: Config", "src/config.cpp: config_read"]}
{"id": "C32", "title": "Pages require authentication when a login is configured", "statement": "With a login configured, a request without the right credentials obtains no meter data, no configuration, no file listing, cannot change the configuration, restart or reset the module.", "quantifier": "every request, every configuration with a username", "why_tests_cant": "all routes x requests", "anchors": ["src/webserver.cpp: webserver_get_auth", "src/webserver.cpp: webserver_setup", "src/webserver.cpp: webserver_handle_notfound"]}
{"id": "C33", "title": "Firmware and filesystem can only be replaced by a fully authorised client", "statement": "With a login configured, a client that is not authenticated (or is restricted) cannot write flash through /update.", "quantifier": "every sequence of upload events", "why_tests_cant": "all upload event sequences and credentials", "anchors": ["src/update.cpp: sys_update_register"]}
{"id": "C34", "title": "A single label can be read at /<LABEL>", "statement": "GET /<LABEL> returns the current value of that label (leading zeros removed) to any client allowed to read the pages, and 404 for unknown labels.", "quantifier": "every frame, label and configuration", "why_tests_cant": "all labels and access modes", "anchors": ["src/webserver.cpp: webserver_handle_notfound", "src/tic.cpp: tic_get_value"]}
{"id": "C35", "title": "The 404 page always completes", "statement": "For every request the not-found handler terminates with a response listing all arguments.", "quantifier": "every number of request arguments", "why_tests_cant": "needs a request with hundreds of arguments", "anchors": ["src/webserver.cpp: webserver_handle_notfound"]}
{"id": "C36", "title": "At most two SSE clients", "statement": "At any time at most two SSE clients are registered; a third simultaneous client is refused with 503 and a slot freed by a disconnection is reusable.", "quantifier": "every interleaving of connections, disconnections, broadcasts and polls", "why_tests_cant": "all interleavings", "anchors": ["src/sse.h: SseClients"]}
{"id": "C37", "title": "Each SSE event reaches each connected client exactly once, in order", "statement": "A broadcast delivers the data once to every registered client still connected, nothing to the others, and drops exactly the disconnected ones; each client object is freed exactly once.", "quantifier": "every interleaving", "why_tests_cant": "all interleavings", "anchors": ["src/sse.h: SseClients::handle_clients"]}
{"id": "C38", "title": "An SSE event is a single event", "statement": "The data broadcast for a frame contains no CR or LF, so that each frame is exactly one SSE event.", "quantifier": "every published frame", "why_tests_cant": "all frame contents", "anchors": ["src/tic.cpp: tic_notifs", "src/sse.h: SseClient::send_event"]}
{"id": "C39", "title": "Filesystem image round trip", "statement": "For every set of files packed by mkerfs32.py that it accepts, the firmware mounts the image, finds each file by its path (with or without leading '/') and reads back exactly its content, size and timestamp.", "quantifier": "every list of files with distinct names, every image size", "why_tests_cant": "all file sets", "anchors": ["mkerfs32.py: create", "src/ERFS.cpp: ERFSImpl::begin", "src/ERFS.cpp: ERFSFileImpl::ERFSFileImpl", "src/ERFS.cpp: ERFSFileImpl::read"]}
{"id": "C40", "title": "Absent files are not found", "statement": "exists() and open() fail for every path that is not a packed file, even when the 16-bit name hashes collide.", "quantifier": "every image built by the tool, every path", "why_tests_cant": "all paths and collisions", "anchors": ["src/ERFS.cpp: ERFSFileImpl::ERFSFileImpl", "src/ERFS.cpp: ERFSImpl::exists"]}
{"id": "C41", "title": "Reading a file in pieces gives the same bytes", "statement": "Any sequence of read() calls with any sizes and any buffer alignment returns consecutive pieces of the file content, stops at the end of file, and position() is the number of bytes consumed.", "quantifier": "every file, every sequence of read sizes and alignments", "why_tests_cant": "all sequences", "anchors": ["src/ERFS.cpp: ERFSFileImpl::read"]}
{"id": "C42", "title": "Seeking keeps the position inside the file", "statement": "After any sequence of seek() and read() calls 0 <= position() <= size(), a failed seek changes nothing and a successful one moves to the requested place.", "quantifier": "every sequence of calls", "why_tests_cant": "all sequences", "anchors": ["src/ERFS.cpp: ERFSFileImpl::seek", "src/ERFS.cpp: ERFSFileImpl::read"]}
{"id": "C43", "title": "The image builder accounts for every byte", "statement": "When the tool accepts the files, the bytes it writes never exceed the requested image size (nothing is cut), and the resulting file has exactly that size; when it refuses, they really do not fit.", "quantifier": "every list of files and size", "why_tests_cant": "all file sets", "anchors": ["mkerfs32.py: create"]}
{"id": "C44", "title": "The filesystem never reads flash outside its partition", "statement": "Whatever image is installed, the filesystem only reads addresses inside its partition.", "quantifier": "every flash content", "why_tests_cant": "adversarial images", "anchors": ["src/ERFS.cpp: ERFSImpl::hal_read"]}
{"id": "C45", "title": "Directory listing and usage", "statement": "Listing '/' returns every packed file exactly once, in order, with its name and size; any series of next(), rewind(), fileName(), fileSize(), fileTime(), isFile() and openFile() calls on this directory answers what the list of the packed files says, and a file opened from it has the content, size, date and names of the current entry; no other directory opens. info() reports the number of bytes used by the files.", "quantifier": "every image built by the tool, every series of calls on the directory", "why_tests_cant": "all file sets", "anchors": ["src/ERFS.cpp: ERFSDirImpl", "src/ERFS.cpp: ERFSImpl::openDir, ERFSImpl::open, ERFSFileImpl::name", "src/ERFS.cpp: ERFSImpl::info", "src/filesystem.cpp: fs_get_json"]}
{"id": "C46", "title": "Uptime text denotes the elapsed time", "statement": "sys_uptime prints days, hours < 24, minutes < 60, seconds < 60 that add up to the elapsed whole seconds, in a bounded buffer.", "quantifier": "every uptime below 2^31 seconds", "why_tests_cant": "all uptimes", "anchors": ["src/sys.cpp: sys_uptime"]}
{"id": "C47", "title": "CPU load is a percentage", "statement": "cpuload_cpu() is between 0 and 100.", "quantifier": "every sequence of loop iterations and timer expiries", "why_tests_cant": "all counter histories", "anchors": ["src/cpuload.cpp: cpuload_cpu", "src/cpuload.cpp: cpuload_loop"]}
{"id": "C48", "title": "Wi-Fi start-up always ends in station or access-point mode", "statement": "sys_wifi_connect terminates after at most 50 waits, in station mode if connected and with its own access point otherwise; credentials found in the SDK are adopted and stored unchanged when none are configured.", "quantifier": "every sequence of Wi-Fi statuses, every configuration", "why_tests_cant": "all status sequences", "anchors": ["src/sys.cpp: sys_wifi_connect"]}
{"id": "C49", "title": "The serial command line does not disturb teleinformation", "statement": "Outside command mode every received byte other than TAB, ESC and ` reaches the decoder unchanged and in order; a command never exceeds 128 characters; command bytes never reach the decoder.", "quantifier": "every byte sequence", "why_tests_cant": "all sequences", "anchors": ["src/cli.cpp: cli_loop_read", "src/main.cpp: loop"]}
{"id": "C50", "title": "A published frame was received contiguously", "statement": "Every published frame consists of bytes received consecutively from the meter, even if decoding was paused by a firmware upload.", "quantifier": "every interleaving of received bytes and uploads", "why_tests_cant": "all interleavings", "anchors": ["src/tic.cpp: tic_decode", "src/update.cpp: sys_update_finish"]}
{"id": "C51", "title": "Decoding resumes after every upload", "statement": "Teleinformation decoding is suspended only between a successful upload start and its end, error or abort.", "quantifier": "every sequence of upload events and update outcomes", "why_tests_cant": "all sequences", "anchors": ["src/update.cpp: sys_update_register", "src/update.cpp: sys_update_finish"]}
{"id": "C52", "title": "Periodic notifications respect their period", "statement": "With a period configured, two periodic requests are at least one period of polling apart from each other's slot (one at most per period slot), including across millis() wrap-around, and a disabled timer never fires.", "quantifier": "every sequence of polling times", "why_tests_cant": "all schedules, 49-day wrap", "anchors": ["src/tic.cpp: tic_make_timers", "src/tic.cpp: tic_notifs"]}
{"id": "C53", "title": "/spiffs.json and /wifiscan.json are valid JSON", "statement": "The file list and the Wi-Fi scan pages parse as JSON and list every file / network once in order.", "quantifier": "every file list and scan result", "why_tests_cant": "all names", "anchors": ["src/filesystem.cpp: fs_get_json", "src/sys.cpp: sys_wifi_scan_json"]}
{"id": "C54", "title": "Human-readable sizes", "statement": "sys_format_size picks the unit so that the shown number is the size in that unit rounded to two decimals.", "quantifier": "every 32-bit size", "why_tests_cant": "all sizes", "anchors": ["src/sys.cpp: sys_format_size"]}
{"id": "C55", "title": "A request never reads outside its buffers", "statement": "Whatever the request (URI, arguments, credentials), handling it reads no memory outside the received strings and performs no undefined arithmetic.", "quantifier": "every request, every configuration, every state of the file system", "why_tests_cant": "needs malformed request lines and an unmounted file system", "anchors": ["src/webserver.cpp: webserver_handle_notfound", "src/sys.cpp: sys_get_info_json"]}
{"id": "C56", "title": "From the serial line to the page", "statement": "After a start and any history, /json and /tinfo.json show exactly the groups of the last valid frame received while decoding was not suspended, with the time of that frame, and an empty page if there was none.", "quantifier": "every start, every history of bytes, uploads, requests and turns of the main loop", "why_tests_cant": "composition of decoder, publication, pages and web server over unbounded histories", "anchors": ["src/main.cpp: loop", "src/tic.cpp: tic_decode", "src/tic.cpp: tic_get_json_dict", "src/tic.cpp: tic_get_json_array", "src/webserver.cpp: webserver_setup"]}
{"id": "C57", "title": "The module as a whole never reaches undefined behaviour", "statement": "From every content of the flash and of the memory, whatever the meter sends, whatever clients ask and upload, no handler reads or writes outside its buffers, divides by zero or loops for ever.", "quantifier": "every start and every history of events", "why_tests_cant": "all histories of all inputs", "anchors": ["src/main.cpp: setup", "src/main.cpp: loop"]}
{"id": "C58", "title": "Live data are streamed only to allowed clients", "statement": "Every stream that receives data was opened by a request that was not refused when it was made.", "quantifier": "every history of events, every stream", "why_tests_cant": "relates an effect to an earlier event at any distance", "anchors": ["src/sse.h: handle_clients", "src/webserver.cpp: webserver_setup"]}
{"id": "C59", "title": "The module restarts only when asked", "statement": "A restart to install an update happens only for a fully authorised POST of /update following an upload that ended well; an immediate restart only for /reset or /factory_reset by an allowed client; the credentials known by the SDK are erased only by a fully authorised factory reset.", "quantifier": "every start and every history of events", "why_tests_cant": "all histories", "anchors": ["src/update.cpp: sys_update_register", "src/sys.cpp: sys_handle_factory_reset", "src/sys.cpp: sys_handle_reset"]}
{"id": "C60", "title": "An uploaded image is written as received", "statement": "An upload without failure writes exactly the bytes received, in order, to the file system if the file name contains fs.bin and to the program memory otherwise, and leaves the configuration unchanged.", "quantifier": "every file name, every division of the file in parts", "why_tests_cant": "all divisions and names", "anchors": ["src/update.cpp: sys_update_register"]}
{"id": "C61", "title": "The command `esp reset` restores the factory settings", "statement": "The serial command `esp reset` overwrites the stored configuration so that the next start uses the factory settings, even if the power is cut at any moment of the write; only a sector that could not be erased keeps the previous configuration.", "quantifier": "every reachable state, every behaviour of the flash", "why_tests_cant": "crash points: the content after a power cut must never be taken for a configuration", "anchors": ["src/cli.cpp: esp command", "src/config.cpp: config_setup"]}
{"id": "C62", "title": "The command `dump` prints the EEPROM exactly", "statement": "The serial command `dump` prints 64 lines; line r shows address 16 r and the 16 bytes stored there, in hexadecimal.", "quantifier": "every reachable state", "why_tests_cant": "all contents", "anchors": ["src/cli.cpp: cli_eeprom_dump"]}
{"id": "C63", "title": "The simulated meter is understood", "statement": "After any use of the simulator, the frame it sends is accepted by the decoder in any state, and the values read are those of the simulated meter; ADPS is present exactly when there is an overload.", "quantifier": "every history of the simulator with printable meter numbers, every decoder state", "why_tests_cant": "all histories and states", "anchors": ["tools/simutic.py: SimuTic", "tools/simutic.py: group", "src/teleinfo.h: put"]}
{"id": "C64", "title": "The command line does not hide frames", "statement": "Every byte history the decoder would accept is accepted as well by the module built with the serial command line (ENABLE_CLI).", "quantifier": "every byte history", "why_tests_cant": "all histories", "anchors": ["src/cli.cpp: cli_loop_read", "src/teleinfo.h: put"]}
{"id": "C65", "title": "A whole life without undefined behaviour", "statement": "Whatever the flash contains at first, however often and at whatever moment the module is switched off and on again, and whatever comes on the serial port (meter bytes and typed commands), from browsers and in uploads, the program never reads or writes outside an object and never loops for ever.", "quantifier": "every initial flash, every finite history of starts, bytes, commands, requests and uploads, every outcome of every flash write", "why_tests_cant": "all histories with crash points", "anchors": ["src/main.cpp: setup, loop", "src/cli.cpp", "src/config.cpp: config_setup", "src/webserver.cpp"]}
{"id": "C66", "title": "Saved settings last", "statement": "Settings posted with `save` by a client with access, and stored by the flash, are those in use ever after, across any number of restarts and power cuts, until somebody changes them again (provided they name a Wi-Fi network).", "quantifier": "every life of the module before and after the form, any number of restarts at any moment", "why_tests_cant": "all histories with restarts", "anchors": ["src/config.cpp: config_handle_form, config_setup", "src/sys.cpp: sys_wifi_connect", "src/main.cpp: setup"]}
{"id": "C67", "title": "Who can change the settings or restart the module", "statement": "The stored settings change only by a form of a client with access, a factory reset with full access, a command typed on the serial port (`set wifi`, `set ap`, `esp reset`), or a start whose settings name no network; a running module restarts at once only by /reset, /factory_reset or such a command (or `esp restart`).", "quantifier": "every life, every event", "why_tests_cant": "all histories", "anchors": ["src/webserver.cpp: routes", "src/cli.cpp: commands", "src/sys.cpp: sys_handle_factory_reset", "src/config.cpp"]}
{"id": "C68", "title": "Frames, commands and restarts together", "statement": "With the command line enabled, since the last start the received bytes divide into commands, all carried out in order, and bytes of the meter; /json shows the last valid frame among the latter, whatever happened before the start and whatever requests, uploads and commands came in between.", "quantifier": "every life of the module", "why_tests_cant": "all interleavings", "anchors": ["src/main.cpp: loop", "src/cli.cpp: cli_loop_read", "src/tic.cpp: tic_decode, tic_get_json_dict", "src/webserver.cpp: /json"]}
{"id": "C69", "title": "The command `tic` shows the last frame", "statement": "The command `tic` prints the time of the last valid frame and then every group of it on a line of its own.", "quantifier": "every life of the module in which the last valid frame is made of groups of printable characters", "why_tests_cant": "all histories and frames, buffer boundary", "anchors": ["src/tic.cpp: tic_dump", "src/teleinfo.h: get_frame_ascii", "src/cli.cpp: tic command"]}
{"id": "C70", "title": "Saving the settings page untouched changes nothing", "statement": "A user who opens the settings page and presses the save button without touching anything leaves every setting of the module as it was: the page shows the settings, the request sent back is read as it was meant, and what is stored are the same settings.", "quantifier": "every reachable configuration, full and restricted page, every outcome of the flash write", "why_tests_cant": "all configurations through page, URL encoding and form handling", "anchors": ["data_src/index.html: frm_config, config tab scripts", "data_src/js/wifinfo.js: autofill, serialize", "src/config.cpp: config_get_json, config_handle_form"]}
{"id": "C71", "title": "What is saved in the settings page is shown again", "statement": "Whatever a user enters in the settings page (texts that fit, numbers within their limits, listed periods) and saves is what the page shows in every control when it is opened again.", "quantifier": "every reachable configuration, every sensible filling of the page, including texts with separators, percent signs, plus signs and accents", "why_tests_cant": "all contents of 33 controls", "anchors": ["data_src/index.html: frm_config", "data_src/js/wifinfo.js: autofill, serialize, param", "src/config.cpp: config_handle_form, config_get_json"]}
{"id": "C72", "title": "The period menus do what their labels say", "statement": "Each option of the period menus stores the period that its label announces.", "quantifier": "every option of the menus", "why_tests_cant": "exhaustive check of labels against values", "anchors": ["data_src/index.html: emon_freq, jdom_freq, httpreq_freq"]}
{"id": "C73", "title": "Which files the web server sends, and to whom", "statement": "The URL / gives the index page (its compressed form if there is one), the restricted index page to a client that came through a proxy, and nothing to a client without the credentials; a GET request under /fonts, /js, /css or /favicon.ico gives the file of that name or its compressed form; no other request ever gives a file of the module, and sending a file changes nothing.", "quantifier": "every request, every client, every content of the file system, every configuration", "why_tests_cant": "all URIs, methods and file systems; absence of any other way to read a file", "anchors": ["src/webserver.cpp: webserver_setup", "src/webserver.cpp: webserver_handle_read"]}
{"id": "C74", "title": "The browser gets the files of the data directory", "statement": "Once the data directory is packed into an image and the image is written to the partition, the home page and every file under the served directories reach the browser byte for byte, whatever the block size used to send them; a URL whose file is not in the directory gives no file.", "quantifier": "every data directory, every image size, every position of the partition, every block size, every URL", "why_tests_cant": "composition of the packing tool, the file system and the web server for all directories", "anchors": ["mkerfs32.py", "src/ERFS.cpp", "src/webserver.cpp: webserver_handle_read", "src/webserver.cpp: webserver_setup"]}
{"id": "C75", "title": "Private parts of a page never reach the restricted page", "statement": "The page prepared for restricted clients is the source page without its private parts: each part from an opening mark to the next closing mark is removed, everything else is kept in order, so two pages that differ only in their private parts give the same restricted page.", "quantifier": "every page, every number and content of public and private parts, marks well placed or not", "why_tests_cant": "all texts, including marks that are not closed, nested or cut by other marks", "anchors": ["prep_data_folder.py: make_restrict", "data_src/index.html"]}
{"id": "C76", "title": "The data directory is up to date after each build", "statement": "After any history of edits, deletions and builds of the sources, a complete build leaves in the data directory, for each source, the file made from its present content, and for each page with the mark its restricted page; files of deleted sources are gone.", "quantifier": "every history of changes of the sources, every order of the directory listing, every interruption point", "why_tests_cant": "depends on the whole history of dates, interruptions and deletions", "anchors": ["prep_data_folder.py: prepare_www_files", "prep_data_folder.py: get_minifier", "prep_data_folder.py: make_restrict"]}
{"id": "C77", "title": "From the sources of the site to the browser", "statement": "After any usual work on the sources and a build, once the data directory is packed, written to the module and mounted, a restricted client that asks for the home page gets exactly the compressed and minified public parts of the source page, and a client with all rights gets the whole page.", "quantifier": "every history of the sources, every page, every image and partition, every request for /", "why_tests_cant": "composition of four programs on all inputs", "anchors": ["prep_data_folder.py", "mkerfs32.py: create", "src/ERFS.cpp", "src/webserver.cpp: webserver_setup"]}
{"id": "C78", "title": "Version written in the site", "statement": "The version put in the site is what git describe prints after the kind of reference and its slash, without the spaces around; without a git directory it is the environment variable, or 'develop'.", "quantifier": "every output of git describe", "why_tests_cant": "all names of references, with slashes or not", "anchors": ["prep_data_folder.py: get_version"]}
{"id": "C79", "title": "The date given with the data is the instant of the frame", "statement": "For every instant up to the year 9999 the printed date has 24 characters, fits its buffer, and says exactly that instant in the legal time of France (two hours ahead of UTC between 01:00 UTC of the last Sundays of March and October, one hour otherwise); two different instants never have the same text. The JSON page carries that text for the time of the last valid frame, and a broadcast with it is always one line.", "quantifier": "every second from 1970 to 9999, every history of bytes and requests", "why_tests_cant": "all dates: leap years, ends of months and years in local time, changes of time", "anchors": ["src/teleinfo.h: get_timestamp_iso8601", "src/sys.cpp: sys_time_now", "src/timesync.cpp: MYTZ"]}
{"id": "C80", "title": "Sorting the dates as texts sorts the frames by time", "statement": "For two instants, the text of the earlier one comes first in the order of texts.", "quantifier": "every pair of instants from 1970 to 9999", "why_tests_cant": "all pairs of dates, including those around the changes of time", "anchors": ["src/teleinfo.h: get_timestamp_iso8601", "src/timesync.cpp: MYTZ"]}
{"id": "C81", "title": "The load bar of the home page shows the load", "statement": "At each refresh of the data tab, for every published frame with ISOUSC and IINST, the bar has the whole percentage of IINST over ISOUSC as width and the matching colour, the text gives both intensities and the badge of the tab gives the percentage.", "quantifier": "every frame, every order of its groups, every history of refreshes", "why_tests_cant": "the page keeps values between refreshes; all orders and sequences of values matter", "anchors": ["data_src/index.html: valueFormatter", "src/tic.cpp: tic_get_json_array"]}
{"id": "C82", "title": "The arrows beside the values", "statement": "At each refresh, a numeric value has an up arrow if it is greater than at the previous refresh, a down arrow if it is smaller, and none if it is the same.", "quantifier": "every sequence of tables, every group", "why_tests_cant": "the script compares with what it kept from all the earlier refreshes", "anchors": ["data_src/index.html: valueFormatter"]}
{"id": "C83", "title": "The gauges show the last broadcast frame", "statement": "After each broadcast, the gauges show PAPP and IINST, the meters show HCHP and HCHC in kWh with three decimals, and the mark is on the off-peak meter exactly during off-peak periods.", "quantifier": "every published frame of every contract", "why_tests_cant": "all frames and contracts", "anchors": ["data_src/index.html: event source listener", "src/tic.cpp: tic_get_json_dict"]}
{"id": "C84", "title": "The collector stores one point per period and goes on", "statement": "The collector stores, for each period of the chosen length in which a frame arrives, exactly one point, with the date and the values of the first frame of the period, and continues whatever the failures of the module or of the database.", "quantifier": "every sequence of messages, times, failures and refused writes, every frame", "why_tests_cant": "all schedules of messages and failures", "anchors": ["tools/dashboard/wifinfo_sse/influx.py: sse", "tools/dashboard/wifinfo_sse/influx.py: insert_data"]}
{"id": "C85", "title": "Polling stores each new frame once", "statement": "In polling mode the collector stores a point for each answer whose date is new, nothing for a repeated date, and continues whatever the module answers.", "quantifier": "every sequence of answers and failures", "why_tests_cant": "all sequences of answers", "anchors": ["tools/dashboard/wifinfo_sse/influx.py: req"]}
{"id": "C86", "title": "The LED tells frames and uploads", "statement": "After setup, the LED is lit only during an upload, when it changes every 333 ms; it flashes once for each valid frame if the user has chosen so, and is not touched otherwise.", "quantifier": "every start, every history of bytes, requests, uploads and passing time", "why_tests_cant": "the LED is shared by the decoder, the upload handler and a timer; all interleavings matter", "anchors": ["src/led.h: led_toggle", "src/tic.cpp: tic_decode", "src/update.cpp: blink", "src/update.cpp: sys_update_finish"]}
{"id": "C87", "title": "The module restarts half a second after an update", "statement": "When an update is complete and the administrator's request ends, the module restarts 500 ms later, and the passing of time restarts it in no other case.", "quantifier": "every history of events before and after the request", "why_tests_cant": "the timer of the restart is also the timer of the LED; all schedules matter", "anchors": ["src/update.cpp: sys_update_register", "src/update.cpp: blink"]}
{"id": "C88", "title": "The commands config, ls and get ver tell the truth", "statement": "On the serial line, the command config prints every setting after its name, one per line, so that two modules that print the same have the same settings; ls prints one numbered line per file with its size; get ver prints the version in flash, cut after 63 bytes. Settings and names without end of line.", "quantifier": "every module state, every settings without end of line, every list of files, every version file", "why_tests_cant": "all values of all the settings at once; a hidden setting would need two modules that differ only there", "anchors": ["src/config.cpp: config_show", "src/filesystem.cpp: fs_ls", "src/cli.cpp: cli_setup"]}
{"id": "C89", "title": "The single source file for the Arduino IDE is the whole program", "statement": "The single source file made for the Arduino IDE holds each unit and each header they include exactly once, with all its lines in order, a header being complete before any line that follows its inclusion; it is made whenever all the headers exist, headers that include each other included; and the compiler sees in it the same program as in the separate files.", "quantifier": "every set of source files, every order of the directory, every graph of inclusions", "why_tests_cant": "the order of the files is that of the file system, and depends on the machine; all inclusion graphs matter", "anchors": ["tools/mkarduinosrc.py: Amalgamation.__init__", "tools/mkarduinosrc.py: Amalgamation._add", "src/cli.cpp", "src/emptyserial.h"]}
{"id": "C90", "title": "Commands typed in the terminal are run once, frames it sends are decoded", "statement": "With the terminal of the project connected to a module, each command typed after TAB, ESC or back quote and ended by Enter is run exactly once with the text typed, in order, and each simulated frame sent (on demand, automatically or when the tariff, overload or power is switched) is accepted by the module with the values of the simulated meter, and nothing else is.", "quantifier": "every sequence of keys, timer ticks and measures, every time of arrival, every initial content of the decoder", "why_tests_cant": "two threads write on the same serial line, and bytes are shared between the command line and the decoder; all interleavings matter", "anchors": ["tools/cli.py: Miniterm.writer", "tools/cli.py: Miniterm.send_tic_periodic", "tools/simutic.py: SimuTic.trame", "src/cli.cpp: cli_loop_read", "src/main.cpp: loop"]}
{"id": "C91", "title": "The update form does what it announces", "statement": "A file chosen in the update form of the settings page is offered with a label, program or web site, that tells where the module will write it; the file sent is the file chosen; the message shown at the end tells whether the update succeeded, and the page then waits for a module that restarts.", "quantifier": "every file name and type, every content and way of cutting it, every failure of the library, every sequence of answers while waiting", "why_tests_cant": "the browser and the module decide with different rules over all file names; the failure can come at any part of the transfer", "anchors": ["data_src/index.html: file_fw, btn_upload_fw, waitReboot, formatSize", "src/update.cpp: sys_update_register, sys_update_finish"]}
{"id": "C92", "title": "A network chosen in the list is the one joined", "statement": "The networks found by the scan are listed in the settings page with their own names and levels; the quality bar grows with the level; choosing one, typing its key and saving stores that network and key, changes nothing else, and the next start joins it; names coming from the neighbourhood are shown as texts.", "quantifier": "every scan result, every reachable settings, every network, key, flash and radio behaviour", "why_tests_cant": "the chain goes through the module, the JSON text, the browser, the form, the flash and the next start, for all names and settings", "anchors": ["data_src/index.html: tab_scan, RSSIFormatter", "data_src/js/wifinfo.js: bootstrap-table", "src/sys.cpp: sys_wifi_scan_json, sys_wifi_connect", "src/config.cpp: config_handle_form"]}
{"id": "C93", "title": "Setting the clock gives no false power", "statement": "The clock starts at a fixed date (13 November 2017) and is set to the real date when a time server answers. Whatever the jump, as soon as a frame is received after it the power is the slope of the index over the frames received since the clock was set, and the frames received before have no part in it.", "quantifier": "every history of bytes, every instant of the setting, every jump of the clock forwards or backwards, every number of frames before and after", "why_tests_cant": "the differences of times are taken modulo 2^32 ms and the window goes back over a ring of 48 samples: whether an old sample is taken for a recent one depends on the real date and on how many frames came since", "anchors": ["src/timesync.cpp: time_setup, RTC_UTC_TEST", "src/teleinfo.h: watt, copy_from"]}
{"id": "C94", "title": "The home page asks for what it shows, and no more", "statement": "The home page holds one event stream while the gauges are shown and none otherwise. While a tab with a table is shown, a request for its data is always in progress or due within 5 s (1 s for the system); there is one such loop only, requests are at least 5 s (1 s) apart, and a table that is not shown is not asked for.", "quantifier": "every sequence of clicks, button presses, answers in any order and after any time, failures and timers, every address the page is opened with", "why_tests_cant": "races between clicks, answers and timers: a timer replaced by another one before it fires, an answer that comes after the tab was left or chosen again", "anchors": ["data_src/index.html: shown.bs.tab, load-success.bs.table, window.onload, Timer_tinfo, Timer_sys, source", "data_src/js/wifinfo.js: bootstrap-table refresh, initServer, tab show"]}
{"id": "C95", "title": "The services read what the module sends", "statement": "Each request is read by the server as it was meant: method, address, host, data. Jeedom gets its key and every group of the frame with its value, in order; emoncms gets its node, its key and the codes of all the groups; the server of the notifications gets the address of the template with the values of the frame (two indexes and the power with the factory address) and, with POST, the frame as JSON. On port 443 the exchange is encrypted.", "quantifier": "every history of frames and settings, every frame, every template, every reason of notification, whatever headers the HTTP library adds", "why_tests_cant": "the tests compare the address given to a replaced http_request with a text; whether a server reads the fields back depends on every character of the settings and of the values", "anchors": ["src/httpreq.cpp: http_request", "src/tic.cpp: http_notif, jeedom_notif, emoncms_notif, tic_emoncms_data"]}
{"id": "C96", "title": "A slow service or page gives no wrong reading", "statement": "While the module waits for the notification server, Jeedom, emoncms or a browser, the characters of the meter that exceed the reception buffer are lost; whatever the durations, what the module shows is always a frame the meter sent. A frame of which nothing is lost is shown, and when the waits are short enough for the buffer every frame is shown, in order. A wrong text is shown at most once for each loss.", "quantifier": "every sequence of frames, every moment at which the module starts to listen, every duration of each turn of the loop, every place of the losses", "why_tests_cant": "the tests give the decoder all the characters; the place where a loss begins and ends depends on the duration of requests and pages, and a wrong text needs a coincidence of two halves of groups", "anchors": ["src/main.cpp: loop", "src/tic.cpp: tic_decode, tic_notifs", "src/httpreq.cpp: http_request", "src/teleinfo.h: TeleinfoDecoder::put"]}
{"id": "C97", "title": "Live gauges on several screens", "statement": "Whatever the pages, the network and the module do, at most two pages receive the live data at a time. A page that receives them gets every text broadcast, once and in order, and stays live whatever the other pages do, until it leaves, its connection is lost or the module restarts; a page whose request is not handled yet gets nothing. If nobody is in a hurry (the loop makes a turn between the end of a stream and the next request of the same page) a page that asks becomes live unless two other pages have the two streams; in particular two screens that are the only ones are never refused, through any number of visits, lost connections and restarts. Not true without that condition: a user who leaves the tab and comes back during one turn of the loop is refused because the old stream is still counted; a refused page never asks again by itself even when the others leave; two pages that vanish without closing their connection keep the third one out.", "quantifier": "all interleavings of pages showing and leaving the gauges, losing their connection, of restarts of the module and of turns of its loop, with any request handled, any broadcast text and any delay before a closed connection is noticed", "why_tests_cant": "The list of streams of the module and the event sources of the browsers run in parallel; the failures appear only for some orders of closing, asking and polling.", "anchors": ["src/sse.h: SseClients::handle_sse_data, handle_clients, SseClient", "src/webserver.cpp: webserver_loop", "src/tic.cpp: tic_notifs", "data_src/index.html: shown.bs.tab handler (EventSource)"]}
{"id": "C98", "title": "Updates over the air need the password", "statement": "In a program built with the over-the-air option, whatever datagrams come, from anybody and at any time, an image is written only after an invitation announcing its size and MD5, a challenge sent to the inviter, and as the next datagram the response of someone who knows the password of the settings at the last start; someone who knows it can send any firmware or file system, if no other datagram comes in between. The port is the one of the settings, or 8266. Not true: that a stranger can do no harm (a wrong password restarts the module, with two datagrams that are the same for every module), that a login protects the firmware (the factory password is published), that a new password is in force once saved (only after a restart).", "quantifier": "all sequences of datagrams from any senders, changes of the settings, restarts, calls of handle() and outcomes of the transfer, for any MD5 function", "why_tests_cant": "The attacker chooses the datagrams, their order and their timing with respect to the administrator and to the changes of settings; the code is marked as not tested by its author.", "anchors": ["src/sys.cpp: sys_wifi_connect (ENABLE_OTA part), sys_ota_setup", "src/main.cpp: setup, loop", "src/config.h: DEFAULT_OTA_AUTH, DEFAULT_OTA_PORT"]}
{"id": "C99", "title": "From the bytes of the meter to the services, in the running module", "statement": "A started module receives any bytes from the meter, at any times, mixed with any page requests, forms and uploads. Requests go to the services only when a byte that is heard ends a valid frame, and what is sent then depends on that frame, on the settings in force, and on the frames before: the tariff notification exactly when the period differs from the one of the previous watched frame (first seven characters), the overload notifications exactly when ADPS appears and disappears, the threshold notifications exactly at the crossings, in a fixed order, to the configured hosts and ports, with the groups of that frame (nothing from a broken frame, nothing from a frame interrupted or received during an upload); and the periodic requests come at most once per period since the settings were last taken into account (the start, or a form that is not refused), at the first frame after each period.", "quantifier": "every start of the module, every sequence of bytes (valid or broken frames, noise), page requests, configuration forms and uploads, at any times (until the next restart)", "why_tests_cant": "The parts (decoder, upload pause, notifications, timers, forms) are correct one by one in C01-C21; that they compose depends on the interleaving of an unbounded sequence of bytes with any requests, e.g. a form or an upload in the middle of a frame.", "anchors": ["src/main.cpp: setup, loop", "src/tic.cpp: tic_decode, tic_notifs, tic_make_timers, http_notif, jeedom_notif, emoncms_notif", "src/httpreq.cpp", "src/webserver.cpp: config_form.json, update", "src/teleinfo.h"]}
{"id": "C100", "title": "From the meter to the browser: the table, the load and the gauges show the last valid frame", "statement": "Whatever happens since the module started (bytes of the meter, requests, forms, uploads, browsers that come and go), each refresh of the table by a page that is not refused shows the date of the last valid frame received, the computed power and all the groups of this frame in their order, each value alone or with an arrow (an empty table before the first valid frame); the other events and the refused requests change nothing on the page; over the session, the arrows follow the successive values; the load bar, its colour, the text and the badge are those of this frame. A message is sent to the gauges only when a valid frame ends and only on an open stream, and the browser reads in it one event that makes the gauges show the groups of this frame; when the period of the gauges is 0, at the end of each valid frame every page still connected gets exactly one message and the others are closed. With a period other than 0, the messages follow the slots of this period, counted from the instant at which the settings took effect.", "quantifier": "all starts, all histories of events, all pages and their sequences of requests, all streams, all frames whose date and groups can be written between quotes", "why_tests_cant": "It composes the decoder, the publication, the JSON writers, the access control, the list of streams and the script of the page over histories of any length; a test observes one history and one side.", "anchors": ["src/tic.cpp:tic_decode", "src/tic.cpp:tic_notifs", "src/tic.cpp:tic_get_json_array", "src/tic.cpp:tic_get_json_dict", "src/sse.h:SseClients::handle_clients", "src/webserver.cpp:webserver_setup", "data_src/index.html:valueFormatter"]}
{"id": "C101", "title": "Restarts and the serial command line do not change what the services receive", "statement": "Whatever the life of the module (starts, power cuts, restarts, commands, forms), since its last start the bytes received on the serial port divide into the commands typed and the bytes of the meter; unless a command acts on the event streams or on the timers, the module is in the very state and has done exactly what it would be and do, started on the same flash, if nothing had been typed. So the requests since the last start are those of the valid frames that remain without the keyboard, and the tariff, overload and threshold notifications follow these frames.", "quantifier": "all lives of the module: all sequences of starts, restarts and events, all commands and places where they are typed, with or without the command line in the program", "why_tests_cant": "Commands may be typed between any two bytes of the meter and restarts happen at any time; a test covers a few places and short lives.", "anchors": ["src/cli.cpp:cli_loop_read", "src/main.cpp:loop", "src/main.cpp:setup", "src/tic.cpp:tic_notifs"]}
{"id": "C102", "title": "Notifications across a restart", "statement": "Whatever the module was told before (and whatever happened: restarts, power cuts, commands, pages), a change seen between two successive valid frames (tariff, overload, threshold) is notified once, even if the module restarted in between.", "quantifier": "every life of the module (starts, restarts, power cuts, bytes, commands, pages, uploads), and every first frame after a start", "why_tests_cant": "the restart may come at any instant of any history, and what is lost depends on the state the module had reached", "anchors": ["src/tic.cpp: tic_notifs", "src/tic.cpp: http_notif", "src/main.cpp: setup"]}
{"id": "C103", "title": "The system page tells the state of the module", "statement": "Whatever happened since the module started, a client with full access that asks for /system.json receives a JSON array of the rows Uptime, Timestamp, network, signal, MAC address, reconnections, firmware version and date, options, SDK, chip, sizes of the flash, of the firmware, free flash, free memory, load, size and use of the file system, number and addresses of the event-stream clients, in this order: the duration since the start in days, hours, minutes and seconds, sizes rounded to the hundredth of their unit, the occupation in percent, the number of streams that were opened and not closed, and the load of the last ten seconds. A client with restricted access receives the same rows without those about the network, the firmware and the hardware.", "quantifier": "every start, every history of bytes of the meter, requests, uploads, disconnections and turns of the loop, every request, every state of the hardware", "why_tests_cant": "the number of streams and the load depend on the whole history since the start; tests check a few pages of a program that has just started", "anchors": ["src/sys.cpp: sys_get_info_json", "src/sys.cpp: sys_uptime", "src/sys.cpp: sys_format_size", "src/webserver.cpp: server_send_json", "src/sse.h: SseClients::count", "src/cpuload.cpp: cpuload_cpu"]}
{"id": "C104", "title": "A login keeps strangers out, across the life of the module", "statement": "Once a login is saved, every request that does not carry it is answered by a response that says nothing and changes nothing (at the addresses of the module, status 401), and every request that carries it is accepted, for the rest of the life of the module: through restarts, power cuts, frames, other people's requests and typed commands, until someone who has the login, or someone at the serial port, writes the settings. In particular a login saved in the settings page is demanded from the next request on. A power cut while the owner saves another setting must not remove the login.", "quantifier": "every program build, initial flash content, life before the login, and continuation: starts at any time, bytes, requests of strangers, requests of the owner; every later request, with or without the login", "why_tests_cant": "A test can make a few requests without the login after one restart; the claim is about every sequence of requests, restarts and power cuts, and about every request a stranger can build.", "anchors": ["src/webserver.cpp: webserver_get_auth, webserver_access_ok, webserver_access_full", "src/config.cpp: config_handle_form, config_save, config_setup", "src/main.cpp: setup, loop"]}
{"id": "C105", "title": "The command led acts on the LED, and on nothing else", "statement": "Whatever is typed with the command led, everything the module does besides the LED is what it would have done without it; if it is never typed the LED itself behaves as in a program without the command line. Outside uploads, led on and led off hold until the LED flashes for a frame (it is then off); led blink inverts the LED once for each turn of the main loop that passes a multiple of 200 ms since the command, that is every fifth of a second when the loop turns at least that often, across the wrap-around of the millisecond counter. Not true during an upload: led off does not last, the LED blinks on.", "quantifier": "every history of commands, bytes, requests, uploads, turns and milliseconds", "why_tests_cant": "interleavings of three independent uses of one pin, over unbounded histories and the wrap-around of the clock", "anchors": ["src/cli.cpp: cli_setup (led)", "src/cli.cpp: cli_loop_read", "src/led.h"]}
{"id": "C106", "title": "Everything built from the meter's data, and everything kept, has a fixed maximum size", "statement": "Whatever the module receives and is asked, for as long as it runs: every request it sends by itself is bounded (a Jeedom URL has at most 1158 characters, an Emoncms URL 783, the user's own URL 150 x 345, posted data 1141); every message of a stream has at most 1151 characters; the pages /json, /tinfo.json and /emoncms.json have at most 1141, 3213 and 696 characters; one event causes at most six requests and two messages; and the state kept (two frame buffers, 48 consumptions, settings and their copies, name of the period, streams, load measures) never grows.", "quantifier": "all starts, all sequences of bytes, web requests, uploads and polls, all settings reached, all requests for these pages", "why_tests_cant": "A test shows the size of the texts for the frames it sends; that no sequence of frames, settings and clients makes a text or a table grow (and exhausts the 40 KB heap) is a statement about all histories.", "anchors": ["src/tic.cpp:tic_get_json_array", "src/tic.cpp:tic_get_json_dict_notif", "src/tic.cpp:http_notif", "src/tic.cpp:jeedom_notif", "src/tic.cpp:emoncms_notif", "src/tic.cpp:tic_notifs", "src/sse.h:SseClients", "src/teleinfo.h:Teleinfo", "src/webserver.cpp:server_send_json"]}
{"id": "C107", "title": "Unpacking an image gives back the files", "statement": "For every directory packed by mkerfs32.py, the option -l lists every file in order with its size, date and name, and the option -x recreates, from the image or from a copy of a module's partition, exactly the files packed (those selected by the patterns): same names, contents and dates, nothing else changed; packing them again gives the same image. Nothing is written outside the directory, whatever the image. Sizes given in bytes, k or m are those of the image.", "quantifier": "every directory, image size, selection, destination directory, bytes after the image, time zone; every image for the last part", "why_tests_cant": "names, contents, positions and padding interact over an unbounded set of directories; hostile images and dates at the change of time are not in any test", "anchors": ["mkerfs32.py: list_content", "mkerfs32.py: get_string", "mkerfs32.py: create", "mkerfs32.py: align32"]}
{"id": "C108", "title": "A network set on the serial port is joined at the next start and kept", "statement": "When the command 'set wifi NAME KEY' or 'set ap NAME KEY' is carried out on the serial command line and the flash stores what it is given, the module restarts at once; from the next start on, across any number of restarts and power cuts and until something else writes the settings, it uses the given network and key (or the given own name and key), cut to the sizes of the settings, and every other setting is unchanged; at each start it asks the radio to join this network with this key, waits at most 50 times and otherwise opens its own access point under its name and key. If the flash does not take the settings, the restart finds the old ones. (Two parts are violated: the command typed without a network erases the one in use, and a failed write is not reported.)", "quantifier": "every program built with the command line (whatever the line parser does), every initial flash content, every life before the command (frames, requests, uploads, restarts, power cuts), every command line, every outcome of the write, every life after it that does not write the settings, every sequence of Wi-Fi statuses", "why_tests_cant": "the claim is about all states in which the command may be typed and about everything that may follow it, including cuts and restarts; a test can only type a few commands in a few states", "anchors": ["src/cli.cpp: cli_setup (set wifi, set ap)", "src/config.cpp: config_save", "src/config.cpp: config_setup", "src/sys.cpp: sys_wifi_connect", "src/main.cpp: setup"]}
{"id": "C109", "title": "The development server shows what the module would show", "statement": "For any state of the simulated meter, a page opened on the development server shows what it would show on a module connected to that meter: each message streamed on /tic is one event holding a JSON object with the groups of the frame and the same values, the gauges get the same values, the table of /tinfo.json has the same groups, the load shown is the same at every refresh, and the date is the instant of the measure.", "quantifier": "all sequences of actions on the simulated meter and of measures, all meter numbers, all dates and time zones of the computer, all earlier states of the page", "why_tests_cant": "the development server is a test tool itself; whether it is faithful to the firmware for every meter state cannot be sampled", "anchors": ["tools/srv.py: event_stream, tinfo_json, stream", "tools/simutic.py: SimuTic.json_dict, SimuTic.json_array, SimuTic.timestamp", "src/tic.cpp: tic_get_json_dict, tic_get_json_array", "data_src/index.html: valueFormatter"]}
{"id": "C110", "title": "What a home automation server knows from the notifications", "statement": "A server that follows the notifications (ADPS/NORM, HAUT/BAS, PTEC) knows at any time whether the meter tells an overload, whether the power is high, and the tariff period, as in the last valid frame; after an outage of the server or of the network, it knows it again; with regular updates posted, one period after the outage it holds a whole frame that is less than one period old.", "quantifier": "every history of the running module (bytes, requests, forms, uploads) and every set of frames for which the server cannot be reached", "why_tests_cant": "the knowledge depends on the whole sequence of frames and on which of the requests were lost, at any points of an unbounded history", "anchors": ["src/tic.cpp: http_notif_periode_en_cours", "src/tic.cpp: http_notif_seuils", "src/tic.cpp: http_notif_adps", "src/httpreq.cpp: http_request"]}
{"id": "C111", "title": "Whatever is typed on the serial port, the settings, the data, the pages and the notifications stay those of the same module without a keyboard", "statement": "Since the last start, whatever the commands typed on the serial port (as long as the module has not restarted), the module has the same settings, stored flash, published frame, notification memory and load measure as a module started on the same flash that met the same events without the bytes typed; it has sent the same tariff, overload and threshold notifications and done the same updates and restarts; every page other than the streams and the system page is answered alike. The command 'sse TEXT' sends exactly one event with this text to each open stream and changes nothing else; 'set timers' starts the periods again from that instant, as saving the form does, and changes nothing else. Only the streams and the periodic requests may therefore differ - and they do: 'set timers' can delay a periodic request (refuted for these).", "quantifier": "every life of the module (starts, restarts, bytes, requests, uploads, writes that fail), every sequence of commands typed anywhere, even in the middle of a frame, every interpretation of the lines by the command library, every request afterwards", "why_tests_cant": "The comparison is between two whole executions that differ by commands typed at arbitrary places between or inside frames; tests try a command on an idle module.", "anchors": ["src/cli.cpp:cli_loop_read", "src/cli.cpp:cli_setup", "src/tic.cpp:tic_make_timers", "src/tic.cpp:tic_notifs", "src/sse.h:SseClients::handle_clients", "src/main.cpp:loop"]}
{"id": "C112", "title": "The terminal shows the conversation with the module whole, apart from its own messages", "statement": "While the terminal runs, the user sees in order what the module sends, in cyan, one red line with the time for each frame sent, and each control character typed, faintly; however the bytes arrive in parts and whatever frames are sent meanwhile. For every dialogue, the text in cyan is, for each command, the prompt, the command as typed, its answer and a new line, and nothing for the frames. Text with escape characters is excluded: it can change the colours.", "quantifier": "all sequences of keys, periodic frames and readings of any size, all answers of the commands", "why_tests_cant": "the display depends on the interleaving of three sources and on how the bytes are cut into readings", "anchors": ["tools/cli.py: Miniterm.reader, Miniterm.writer, Miniterm.send_tic, Colorize, Console.getkey", "src/cli.cpp: cli_loop_read"]}
{"id": "C113", "title": "A file sent through the update page ends in the right place of the flash memory", "statement": "The image of a data directory sent whole through the update page fills the partition of the site exactly, and after the restart the module serves the new files; a new program is written as received before the partition. Whatever is posted, in whatever order and with interruptions, the running program and the stored settings are not touched, and files that are not for the site leave the site as it was. Whatever was posted before, an image sent whole afterwards is accepted, so that a lost site can be repaired. An update that fails keeps the site in service, and only an authorised client can replace it. A file that does not fit, or longer than announced, is never answered OK, and the module does not restart; after a failure nothing is written until another file begins. A file accepted for the site is an image that can be served.", "quantifier": "every layout of the flash memory, every content, every way of cutting it in pieces, every sequence of uploads and interruptions, every state of the memory before", "why_tests_cant": "the result depends on how pieces fall across buffers and sectors, on the content of the flash memory before, and on where a transfer is interrupted", "anchors": ["src/update.cpp: sys_update_register, sys_update_finish", "src/ERFS.cpp: begin", "src/webserver.cpp: webserver_setup", "mkerfs32.py: create"]}
{"id": "C114", "title": "The start of the module has a bounded duration, shown by its LED, and allows a rescue over the air", "statement": "Whatever the flash memory holds and however the network behaves, the module starts: the LED is lit, then flashes once for each fifth of a second spent waiting for the network, for ten seconds at most, then eleven times more slowly while updates over the air are served, and is off in the end; without its network the module then opens its own. During these flashes, whoever knows the password of the settings can install any program or file system, and nothing else makes the module restart.", "quantifier": "every content of the flash memory and of the configuration, every sequence of connection statuses, every moment of an update in the window, every sequence of datagrams", "why_tests_cant": "the duration depends on the whole sequence of statuses of the radio and on the settings stored; the window must hold for every interleaving of datagrams and service calls", "anchors": ["src/main.cpp: setup", "src/sys.cpp: sys_wifi_connect, sys_ota_setup", "src/led.h: led_on, led_off"]}
{"id": "C115", "title": "The LED during an update over the air", "statement": "In a program built with the LED and the over-the-air updates: when an update that was allowed goes on, the LED is lit, goes off, then changes each time something is received, and is switched off after the image has been written, just before the restart. It does not change for datagrams from anybody, for refused updates, or for updates that come before the end of the start. Showing this changes nothing to the updates: what is written, answered and restarted is the same whatever the pieces in which the image comes.", "quantifier": "every history of datagrams, restarts and settings, every image and every way to cut it in pieces, every failure of the transfer", "why_tests_cant": "the number and the sizes of the pieces depend on the network, and the datagrams come from anybody at any time", "anchors": ["src/sys.cpp: sys_ota_setup", "src/led.h: led_toggle", "src/led.h: led_on", "src/led.h: led_off"]}
{"id": "C116", "title": "The package for the Arduino IDE has all the sources and data", "statement": "The tool that prepares the project for the Arduino IDE puts each source file and each data file in its place with its content, in a folder or in an archive; the archive has nothing else, and unpacking it gives what the copy gives. With the single source file, the sketch is that file, beside the data, without the other sources. Other files and archives do not change; if the single file cannot be made nothing is copied. The archive is named as asked, with .zip added if there is no extension.", "quantifier": "every source tree, every content, every folder and every archives that exist before, both forms and both options", "why_tests_cant": "the result depends on the names and contents of all the files and on what is already in the target", "anchors": ["tools/mkarduinosrc.py: cmd_arduino_ide, cp, Amalgamation"]}
{"id": "C117", "title": "The development proxy shows the site of the sources with the data of a module", "statement": "Behind the development proxy, all that the page asks for its tabs, gauges, settings, buttons, restarts and updates is answered by the module as if it was asked directly, with the same credentials and effects; the files of the site are those of the sources; the module is asked for nothing else.", "quantifier": "every request, every state of the module, every content of the source folder", "why_tests_cant": "the choice between the files and the module depends on the whole address, which is arbitrary, and the module may be in any state", "anchors": ["tools/default.conf: locations", "tools/httpdev.sh", "data_src/index.html: waitReboot, tabs", "src/webserver.cpp: webserver_setup"]}
{"id": "C118", "title": "The command time tells the time", "statement": "For every instant until the year 9999, the command time prints the fields of the legal time of France and of the time at Greenwich of that same instant (date, place of the day in the year, day of the week, summer time or not), the counters since the start, the number of seconds, and the date in words, which is that of the local time; two instants before 2106 never give the same text. The message printed when the time arrives from the network has the same date in words. Known limits, proved as such: the month is printed from 0 and the year from 1900, and the date in words alone does not tell the two passages of the hour that comes twice in October.", "quantifier": "every second from 1970 to 9999, every counters and list of servers", "why_tests_cant": "all dates: leap years, New Year in local time only, changes of time, days of one digit", "anchors": ["src/timesync.cpp: time_show, print_tm, time_is_set_scheduled", "src/cli.cpp: cli_setup (time)", "src/emptyserial.h"]}
