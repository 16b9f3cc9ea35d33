# Formal model of wifinfo: design

The model is written in Rocq/Coq 8.16.1, in `rocq/theories/`. Source read: `/repo` (never built or run).

## 1. Conventions

* Every machine number is a `Z`; lists are indexed by `nat` lengths. A byte is a `Z` in 0..255. Wrap-around
  (uint8/16/32) is written explicitly (`u8`, `u16`, `u32` in `Base.v`).
* Memory is a `list Z` of fixed length. Reading or writing outside it is a distinct outcome: the model functions that
  touch memory return `option`, `None` meaning "undefined behaviour / out of bounds / loop bound exceeded". Safety
  theorems say that the result is never `None`. Uninitialised memory is an arbitrary list, quantified in theorems.
* C strings are modelled either in place (pointer = index in a byte list) where memory safety matters, or as the
  `list Z` of their bytes before the NUL where it does not (Arduino `String` values).
* Files: `X.v` holds the model of a source file, `XSpec.v` a small independent specification, `XProofs.v` proofs,
  `Prop*.v` only the property theorems (each closed by `exact`), an `Example` for each showing a non-trivial case
  meeting the hypotheses, and `Print Assumptions`.
* A property the code violates gets a theorem `..._refuted` (`exists` an input for which the property fails, by
  computation), and the part that does hold is proved with the suffix `_partial` or under an explicit hypothesis.

## 2. What is modelled

| Source | Model | Not modelled |
|---|---|---|
| `src/teleinfo.h` | all of `TeleinfoDecoder::put`, `ready`, `copy_from`, `watt`, `get_*`, `get_frame_ascii`, `get_integer` | timestamps are given strings in `Tic.v`; `Clock.v` models `gmtime`, `localtime` and `strftime` (after the C library of the target, not in /repo) and instantiates them |
| `src/tic.cpp` | `tic_decode`, `tic_notifs`, `tic_make_timers`, JSON, templates, notifications, jeedom, emoncms | log output on Serial |
| `src/jsonbuilder.h` | both builders | allocation failure of Arduino `String` |
| `src/config.cpp/.h`, `src/strncpy_s.h` | packed layout, CRC, save/read/reset/setup, form, JSON | log output |
| `src/webserver.cpp`, `src/update.cpp` | routes, access rules, not-found handler, upload events, files sent block by block; uploads down to the flash memory (`Flasher.v`, with the library Updater as known: no flash failure, no MD5 nor signature; the pieces are never empty) | HTTP parsing |
| `src/sse.h` | whole | TCP |
| `src/ERFS.cpp`, `mkerfs32.py` | image builder, list and extraction by the tool, lookup, read, seek, all calls on directories, info | write operations (all refuse), option -v of the list |
| `src/sys.cpp`, `src/cpuload.cpp`, `src/filesystem.cpp` | uptime, size formatting, Wi-Fi connection, scan, cpu load, file list, updates over the air | mDNS |
| `src/httpreq.cpp` | the bytes of a request; the characters of the meter that come during it | the connection, its failures; headers of the library are arbitrary |
| `src/timesync.cpp` | the date of the start and its later setting, the time zone, the command `time` | the SNTP client, the list of the servers in the command `time` |
| `src/led.h`, timer of `src/update.cpp`, command `led` | the LED during the start, frames, uploads, updates over the air and after the command, the delayed restart | |
| `src/cli.cpp` | characters to lines, prompt and echo, switch between meter and command line, the commands that touch the settings, restart the module or print data | the parser of the SimpleCLI library (a command is given parsed) |
| `src/main.cpp` | `setup` and `loop` over all of the above, restarts and power cuts | watchdog, memory exhaustion |
| `data_src/index.html`, `data_src/js/wifinfo.js` | the settings form, its filling and its sending, the period menus, the data table (load bar, arrows), the gauges, the update form, the list of networks, the requests made by the tabs, the event sources of several pages | what bootstrap-table draws, the validator plug-in, transitions |
| `prep_data_folder.py` | names, dates, cleaning, builds complete or interrupted, restricted pages, version | what html-minifier and gzip write (functions of their input), text encodings |
| `tools/dashboard/wifinfo_sse/influx.py` | both loops, points | the database, the SSE client library |
| `tools/mkarduinosrc.py` | the single source file (option -1), the copy, the archive | compression, dates and rights of the files |
| `tools/default.conf`, `tools/httpdev.sh` | the choice of nginx between the files and the module | nginx itself (decoding, redirections, buffering), docker |
| `tools/cli.py` | keys, automatic frames, bytes written, what is shown and its colours | choice of the port, the other transformations of the text (never selected); writes are atomic |
| `tools/eeprom.py`, `tools/simutic.py`, `tools/srv.py` | image writer/reader, frame generator, data pages and stream of the development server | argument parsing, flask, the routes with fixed data |

Libraries that are not in the repository (ESP8266 core: EEPROM, `polledTimeout`, `ESP8266WebServer::authenticate`,
`Update`, newlib `strtol`) are modelled from their documented behaviour, stated in the comment of each definition, or
are left as arbitrary oracles (function arguments, universally quantified).

## 3. Trusted base

Coq's kernel (with `vm_compute`); the reading of the C++/Python done when writing the model; the library behaviours
listed above. `Print Assumptions` is run for every property theorem; the expected answer is "Closed under the global
context" for all of them (no axioms, not even from the standard library). Section 5 gives the actual result.

## 4. Plan per property

* C01 acceptance: grammar `frame_bytes` in `TeleinfoSpec.v`; soundness by an invariant on (history, state), completeness
  by forward simulation from an arbitrary state.
* C02 round trip: `enc_frame` of groups; corollary of C01 + iteration lemma.
* C03 safety: invariant (offset <= 350, start <= offset ...) shows `put` is never `None`; the accessors are never `None`
  because a published frame ends in NUL and size < 350; independence of the stale bytes from C01.
* C04 corruption: case analysis on the position and replacement. The full claim is false (bit 6 flips keep the
  checksum; the second separator is not covered): two `_refuted` theorems, and a proof for all the other cases.
* C05, C06: the accessors equal list-level specifications (split on NUL, first match; decimal value).
* C07: composition of decoder and `copy_from` on `tic_decode`; published data = last accepted frame of the history.
* C08: model is parameterised by the signedness; equality of runs.
* C09: list-level description of the dump; bound on the index.
* C10: ring = last 48 samples of history; `watt` = spec on the history; no zero division; overflow above 1193 Wh refuted.
* C11-C13, C53: an executable JSON parser (`Json.v`) is the specification: parser(output) = expected object, if and only if
  names/values need no escaping and numeric values are non-empty (`JsonExact.v`, `ExactPages.v`); `_refuted` otherwise.
* C14-C16: traces over lists of frames; refutation for PTEC of 8 characters or more.
* C17: templates as token lists; rendering then expanding gives the concatenated meanings.
* C18: url field embedded in the 1024-byte configuration memory; refuted at length 150, proved otherwise.
* C19: effects of `tic_notifs` as a list of requests; classification.
* C20, C21: closed form of the produced text.
* C22-C31: configuration is a 1024-byte memory with a field table; CRC by xor-linearity and injectivity; crash model of
  the flash commit (erase then write a prefix). C29 and C30 are false in full: refuted, partial theorems.
  `Utf8Spec.v` defines UTF-8 from the RFC; the decoder of the tool accepts exactly it (C31_utf8), hence the tool reads exactly the
  images whose texts are UTF-8.
* C32-C35: route table as a function from request and state to effects. C33, C34, C35 are false in full: refuted,
  partial theorems.
* C36-C38: SSE client list as a state machine over events.
* C39-C45: image builder and reader over a flash function; layout lemmas. C39 is false for images with less than 63
  bytes after a name, and names of 64+ bytes; C44 is false for crafted images: refuted, hypotheses made explicit.
  `ErfsDir.v` has the other calls on directories; `walked` (ErfsDirSpec.v) says what any series of them answers (C45_walk_partial).
* C46, C47, C54: arithmetic. C47 is false above 85000 cycles: refuted, and `CpuExact.v` gives the load for any average.
* C48: loop over a status oracle; C49: list transducer; C50: false across a pause: refuted; partial: contiguous unless a pause lies inside;
  C51: upload event automaton; C52: `periodicMs` on a modulo-2^32 clock, slots for any polling times.

* C55-C60: the device (`Device.v`) is a state machine over bytes, requests, uploads and clock ticks; an invariant shows
  that no step is undefined, and effects (answers, streams, restarts, flash writes) are classified event by event. C55
  and C57 are false for requests that overflow a fixed buffer: refuted, partial theorems.
* C61, C62, C64: the command line as a state machine in front of the decoder. C64 is false for bytes typed during a
  frame: refuted, partial theorem.
* C63: the generator of `tools/simutic.py` composed with the decoder.
* C65-C69: a life (`Life.v`) is a list of starts and device events over a persistent flash; invariants by induction on
  the life, with every outcome of every flash write.
* C70-C72: the settings page (`Form.v`) composed with `config_get_json` and `config_handle_form`: blank page, JSON, filled
  page, URL-encoded request, arguments read by the web server, settings. The proof shows that the filled page is a
  function of the settings (`page_of`), that its pairs survive the encoding, and that `after_form` of them gives the
  settings back. False for texts that JSON cannot hold, unlisted periods and texts longer than their field: refuted.
* C73: `handle` on the root, on static prefixes, and a classification of every response that contains a file. C74:
  `Site.v` streams a file of the mounted partition block by block; composition with C39/C40 and C73.
* C75: `re.sub` as a left to right scan; equivalence with the relation `seen`; the marks cannot overlap since they have only
  one `<`. C76: invariant on histories of both directories (a file that would not be made again is right); refuted for
  interruptions, old dates, failures hidden by the pipe. C77: composition of C75, C76 and C74. C78: direct.
* C79, C80: days by the formulas of the C library, shown equal to the calendar counted day by day (`tomorrow`) through years
  beginning in March; the changes of time are the last Sundays; the text is decoded field by field. C80 is refuted in October. `ClockOrder.v`: the order of the texts of any two instants, exactly.
* C81-C83: the formatter of the table is a state machine over calls; invariants on what it keeps for one group; composition
  with C11 and C12 down to the published frame. C84, C85: loops as state machines over messages, failures and answers.
* C86, C87: the whole module with the LED and the shared timer, one event per millisecond; invariant linking the timer with
  the pause of the decoder; C01 for "a frame has just ended".
* C88: what the serial commands config, ls and get ver print (the texts of Cli.v), cut in lines by a separate function;
  induction on the fields and files; injectivity of the decimal numbers for "nothing is hidden".
* C89: the recursive copy as a function with fuel, shown sufficient by counting the files not yet copied; each result line
  remembers its origin; a rank gives the order; a small preprocessor for what the compiler sees (refuted part).
* C90: the terminal as a state machine over keys and ticks; a dialogue is an inductive relation between events, commands and
  frames; induction on it, with C01 and C02 for "each frame and nothing else" and C49 for the commands.
* C91: the patterns of the page characterised as sets of names; composition with C60 for what is written; induction on the
  parts of a transfer for the verdict. Refuted for several kinds of names and for failed updates.
* C92: composition of C53 (list), C70/C71 (page), C29 (flash) and C48 (start) on the same name; a small reader of HTML tags for
  the names shown. Refuted for names that hold a tag, and for one quote that hides the list.
* C93: the walk over the samples stops at the last frame before the setting; generalisation of the lemma of C10 to a history
  cut in two. Refuted for the dates where the jump is small modulo 2^32 ms.
* C94: the script of the tabs as a state machine over clicks, answers, timers and time; invariants (numbers of requests and
  timers per table, variables that name them). Refuted for the first tab, failures, the refresh button and one address.
* C95: a reader of HTTP requests and of the fields of an address as specification; reading what is written gives back the
  texts, by induction on lines, parts and fields; composition with C17, C19, C20, C21. Refuted for reserved characters.
* C96: `Uart.v` gives the reception buffer (255 characters, the oldest dropped) and the turns of `loop` with the characters that
  come during each; an invariant over the turns says that the characters read are pieces of those sent, and C01 (exactness of
  the decoder) then says which texts are shown. Losses that begin after ETX harm no frame: the requests are made there. A slow
  page can lose characters inside a frame: two refutations.
* C97 several screens: the module's list of streams (`Sse.v`), its loop and the event source of each page as a transition
  system; invariant "a live page owns a stream of the list", and, without hurry, "each page owns at most one"; refuted
  without that condition, for a page refused once, and for connections that vanish.
* C98 updates over the air: `Ota.v` models the object of the library as set up by the module (datagrams as fields, MD5 an
  arbitrary function of 32 digits); invariant over the history: which invitation and which response led to the state; the
  password in force is a function of the history with its effects. Restart by a stranger, public factory password and late change
  of password refuted.
* C99 whole chain: `ChainSpec.v` defines, for any history of the module (`drun` of `Device.v`), the valid frames that end in it (with the settings in force, millis(), date, groups and effects); every history has such a list (C99_frames). `ChainProofs.v` shows by induction on the history that the module is then exactly a run of the notification model of C14-C21 fed with these frames, and `ChainMain.v` transports the theorems: only frames send, tariff, overload, thresholds, contents of the requests, periods since the last configuration (`configured_at`). The history stops at a restart; the serial command line is not part of `drun` (see C68 for it).
* C100 From the meter to the browser: `ScreenSpec.v` (the drawings of a page during a history, open streams, what the gauges show). The table by
  C56/C12/C81/C82 at the state reached by the history (`DevicePages.heard_groups`), the streams by an invariant (clients of the list = streams
  opened and not closed), the messages by `ends_frame` of C99. Proved: `PropScreen.v`.
  A period other than 0 (C100_period): the timer of the streams through the chain of C99, then the slots of C52.
* C101 Lives and sessions: `SessionSpec.v` removes what is typed from the events (`keyboard_removed`, by `session` of C49 on the positions of the bytes). By induction on the events since the last start, `lrun` (with command line and restarts) and `drun` (without) end in the same state with the same effects; C99 is then applied. Commands `sse` and `set timers` are excluded because they act on the streams and timers by themselves. Proved: `PropSession.v`.
* C102 Restarts and notifications: by C101 the effects since the last start are those of a fresh module on the remaining events, and C99 gives its first frame: the notifications start from nothing. So the full claim is false (two refuted lives: a change during a power cut is never notified, an overload is notified twice); what is sent for the first frame is proved exactly. `PropRestart.v`.
* C103 (system page): SystemSpec.v lists the rows with what each tells (a text, a number, a size, a duration), independently of the page builder of Pages.v; SystemProofs.v proves, after any history of the module (`drun`), that the reply to /system.json is a JSON array of these rows, that the number of clients is the number of streams opened and not closed, and that the load is that of C47 for the turns of the loop. The texts given by the SDK are inputs.
* C104 login: `LoginSpec.v` says what may happen (`nobody_changes`) and what a module that demands a login does (`demands`); induction on the life with the invariant of C66 (settings in use and stored), C32 for each request. `LoginAny.v` does the same for settings without a network with a weaker invariant (only the login is kept: a start may take over the network of the SDK and write it), when no power failure cuts that write. Refuted for a power cut during a save, and for one during the write of a start (`C104_start_refuted`: nobody did anything); the module then starts again without a login. Uploads are excluded because of C33.
* C105. `Blink.v` adds timer_blink and the command to the board of Led.v. A simulation relation forgets the LED (the other effects do not depend on it); an invariant ties the timer to the number of multiples of 200 ms passed (lemma `poll` of C19/C99).
* C106 (bounded sizes): BoundSpec.v lists the limits; BoundProofs.v bounds the groups of a published frame by its buffer (at most 347 bytes kept), then each text built from them; BoundMain.v carries the bounds through every run of the module (Device.v). Assumed of the surroundings: the date fits its 32-byte buffer, the clock is a 64-bit number of seconds. An example shows a user URL of 24750 characters, so the large limit of that one is of the right order.
* C107 unpacking (`Unpack.v`): model of `list_content` (header, records, names, options -l and -x) and of the reading of the size; the
  image of `create` is decomposed as in C43 and both loops are followed record by record, names and contents being generalised to any
  position. Refuted: accents and control characters in names (another name, two files under one name), the hour that comes twice, names
  that leave the directory, cut images.
* C57, C65 (exact form): `FatalSpec.v` lists the events that bring the module down, in terms of what is seen from outside (the same module without a
  notification URL, the same request without arguments); `PropFatal.v` proves, for every history without any condition on the requests, that the run
  is undefined, or endless, if and only if one of these events occurs. Proof: whether the URL can be expanded depends on its bytes only; step by step
  equivalence; induction over the history. The property as stated (never) is refuted by concrete histories.
* C108 (SetNetSpec.v, SetNetProofs.v, SetNetSamples.v, PropSetNet.v): the commands `set wifi` and `set ap` at any moment of a life (Life.v, with the SimpleCLI parser arbitrary). `sets_network` says what each asks for (words not typed are empty); proved: immediate restart, the settings asked for are stored, used ever after (invariant `keeps_using` of C66) and given to the radio at the next start (plan of C48); a write that fails leaves the old settings. Refuted: `set wifi` without a network erases the one in use (`countArgs() >= 1` is always true there), and a failed write restarts without a word.
* C109: `Srv.v` models the two JSON pages of the development server on the simulated meter (`json.dumps` with its escapes, compact and indented, the stream) and the date; `SrvProofs.v` proves that the JSON reader gives back the strings, numbers, objects and arrays written with any white space, `SrvMain.v` and `SrvFinal.v` compare the messages, the gauges and the load with those of the module for the frame of the same meter. Refuted: the date (local time marked Z), a meter number with a quote (the module's page breaks, not the server's), the meter number (text or number). The routes with fixed data, flask and the floating point measures are not modelled.
* C110 what a server knows (`FollowSpec.v`): the knowledge is a fold over the frames and the notifications that reached the server; on top of C99
  (edges, changes, thresholds), it agrees with the last frame if every request, or every one since a notification that was received, arrived.
  `http_request` has no result: what is lost is lost until the next change (C110_lost, for any history), hence the refutation. The regular updates
  repair it: one period after the outage, the last text posted carries a whole frame less than one period old (C110_update: C99_period, C99_http); the
  same for the requests to Jeedom and emoncms (C110_services), with the settings of the start or of any form.
* C111 (commands that act on the streams and the timers): MeddleSpec.v (`same_core`, `essential`, `to_all`), lockstep simulation between the life with the keyboard and the run without it in MeddleProofs.v (`step_core`, `command_core`, `meddled_run`), together with C99 in MeddleMain.v. C101 gives equality of the whole state when no command meddles; C111 gives what remains without this hypothesis. The run without the keyboard is supposed to be defined: C57 and C65 tell when it is. The periodic requests are refuted (`C111_periodic_refuted`).
* C112: the text written by `reader`, `writer` and `send_tic` on the screen, for any interleaving of readings, keys and periodic frames, and the prompt and echo of `cli_loop_read` (Terminal.v). The specification (TerminalSpec.v) is a small terminal that interprets the colour sequences and gives each character with its look. Invariant: between two writings the terminal is outside a sequence and not dim. The conversation is proved by induction on the dialogues of C90. Refuted for text with escape characters, and for Backspace in a command (the screen does not say what is run). Each writing is atomic; the answers of the commands are arbitrary texts; other things that the module may print (log messages) are left out.
* C113: the library Updater of the ESP8266 core is modelled down to sectors, erasure and programming of the flash memory (`Flasher.v`, from its source as known: it is not in /repo; no failure of the flash memory, no MD5, no signature), under the upload handler of `src/update.cpp`. By an invariant on what has been flushed, what is in the buffer and what has been erased: a whole image fills the partition and nothing else changes; with C39 and C74 the module then serves the new directory; a program is staged before the partition; any sequence of parts preserves the running program and what follows the partition; uploads of programs preserve the site; after any uploads, the last one closed, a whole image is accepted and fills the partition (`FlasherRepair.v`: every end of an upload makes the library idle). Refuted: an interrupted update loses the site that was there; a client without credentials replaces the site (the credentials are looked at after the upload). `FlasherFail.v`: files that do not fit, are too long or smaller than the buffer, and what follows a failure. `FlasherShort.v`: an image shorter than the partition is accepted and the module restarts; refuted: a file sent for the site is checked to be an image.
* C114 (Startup.v, StartupSpec.v, StartupProofs.v, StartupOta.v, StartupSamples.v, PropStartup.v): the LED, the delays, the orders to the radio and the calls of `ArduinoOTA.handle` during `setup`, on top of the start of Device.v and of the waiting loop of Wifi.v (C48); the window of eleven calls is composed with the model of the OTA protocol (Ota.v, C98): by induction on the events between the invitation and the answer. The comment of the code announces five seconds of waiting; the loop lasts ten. The duration of the parts without `delay` is not modelled.
* C115 the LED during an update over the air (`OtaLed.v`, `OtaLedSpec.v`): the callbacks on top of Ota.v, with the pieces of the transfer; a refinement of Ota.v (induction on the history), and the changes of the LED by induction on the pieces. The library (order of its callbacks) is modelled from its source, as for C98.
* C116 (Package.v, PackageSpec.v, PackageProofs.v, PropPackage.v): the command of `tools/mkarduinosrc.py` around the class of C89: the list of files given to the copy or to the archive, the copy with the cases where it stops, the name of the archive. Trees are lists of files with their paths; empty folders, dates, rights and compression are not modelled. Proved by induction on the files copied: what is found at each path after the run; the archive unpacked is the copy. Refuted: a version number in the name is taken for an extension; a copy of the single file over an earlier copy leaves the separate sources beside it; a run that fails loses the previous archive.
* C117 (Proxy.v, ProxySpec.v, ProxyProofs.v, PropProxy.v): the locations of `tools/default.conf` and the rule of nginx (exact location, then longest prefix; nginx is not in /repo), in front of the web server of C32-C35. Proved by an invariant of the search of the longest prefix: an address goes to the module if and only if it begins with one of those listed. Not modelled: decoding of addresses, redirections of folders, buffering of the streams, time-outs. Refuted: the wait for a restart asks for `/hb.htm` but the proxy knows `/hb.html`; updates do not reach the module; a file whose name begins like an address of the module is not served.
* C118 (the command `time`): `TimeShow.v` models `time_show` and `print_tm` with the fields `tm_yday` and `tm_isdst` of `gmtime` and `localtime`, and `asctime`, after newlib. `PropTimeShow.v` proves that the lines are the fields of the calendar counted day by day (`ClockSpec.v`), and that the text determines the instant; it refutes two readings (month from 0, hour that comes twice). The list of the SNTP servers is an argument.

## 5. Status

See `MANIFEST.json` for the per-property status and theorem names.

`Print Assumptions` answers "Closed under the global context" for every theorem of the `Prop*.v` files. Loading the
standard library's `ssreflect` (through `lia`'s dependencies) makes a whole-context listing mention seven constants
`Coq.ssr.ssrunder.Under_rel.*`; they are the fields of a module type of the standard library and no theorem uses them.

A property is `proved` when its full statement is a theorem, `partial` when a hypothesis had to be added; in nearly all
cases because the code violates the full statement, which a theorem `..._refuted` then shows. `seeded/LOG.jsonl` records the
wrong programs against which the theorems were tried.
