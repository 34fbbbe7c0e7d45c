# Formal model of jiegec/usbip in Rocq (Coq 8.16.1)

## 1. Trusted base

* Coq's kernel (and, when `vcheck` is run, `coqchk`, which re-checks every compiled file).
* `Print Assumptions` follows every theorem named in MANIFEST.json; each prints
  "Closed under the global context". No axiom is used by any of them.
* std++ (`base`, `list`, `gmap`) is the only library besides Coq's own. Through it, `coqchk` reports
  the library parameters `Coq.ssr.ssrunder.Under_rel.*` as part of the loaded context. No theorem depends on them.
* No axioms, parameters, admitted proofs, functors, module types, plugins or disabled kernel checks.
* The correspondence between the Rust source and the model definitions. It was done by reading.
  Every model definition cites file and lines. Nothing was compiled or run.
* The specifications in `Spec*.v`. They are written without the helpers of the model. Those that describe other parties
  (the USB 2.0, HID and CDC tables, the usbip wire format, the Linux vhci client of SpecLinux.v) were written from
  knowledge of the standards and of Linux; neither is in the repository, so there was nothing to check them against.

## 2. What is modelled

| model file (rocq/theories) | code |
|---|---|
| Base.v, Utf.v | integer widths and casts, big/little endian, `Vec::resize`, panics, io errors, UTF-8/UTF-16 (Rust std) |
| Types.v | consts.rs, endpoint.rs, interface.rs, setup.rs, the `UsbDevice` and `Version` records |
| Device.v | device.rs: `new`, eight string setters, `new_string`, `with_interface`, `with_device_handler`, `find_ep`, `to_bytes`, `to_bytes_with_interfaces` |
| Handlers.v | the two handler traits, as arbitrary state machines behind a poisoning mutex |
| Protocol.v | usbip_protocol.rs: reader, both encoders, response constructors |
| Urb.v | device.rs: `handle_urb` |
| Hid.v, Cdc.v | hid.rs, cdc.rs |
| HostHandlers.v | host.rs: the four rusb/nusb handlers |
| HostEnum.v | lib.rs: `with_rusb_device_handles`, `with_rusb_devices`, `new_from_host_with_filter`, `new_from_host`, `with_nusb_devices` |
| Server.v, Conn.v | lib.rs: `new_simulated`, `add_device`, `remove_device`, `handler` on one connection |
| Sys.v | lib.rs: any number of `handler` tasks and API calls, with two tokio FIFO `RwLock`s |
| Accept.v | lib.rs: `server`, the accept loop on top of Sys.v |
| Workers.v | the accept loop and the tasks on a tokio runtime with W worker threads, on which handler calls block |
| Prog.v | examples/hid_keyboard.rs, examples/cdc_acm_serial.rs: the whole process on top of Accept.v; consts.rs: `ClassCode` |
| HostProg.v | examples/host.rs: enumeration, then the server on top of Accept.v |
| Fine.v | the tasks of Sys.v, one lock operation, collection access or handler call per step (multi-threaded runtime) |
| Cancel.v | Sys.v plus futures dropped by the application at any await |
| Net.v | the same with byte streams: fragmentation, suspended readers, partial writes (tokio `read_exact`, `write_all`) |
| Util.v | util.rs: `verify_descriptor` |

`dbg : bool` selects a debug build (debug assertions, overflow panics) or a release build (wrap-around). Every
theorem about code with such checks quantifies over it.

### Simplifications

* A handler call returns: user handlers do not loop for ever, and change only their own state. Calls that take long are
  the subject of C80 and, with a bounded number of threads, of Workers.v (C90).
  They may return anything, fail, panic, and depend on everything they saw.
* Between two awaits a task of Sys.v runs in one step. Fine.v splits this into single accesses to shared data, with
  all other tasks running in between, and C72 proves that the behaviours are the same.
* tokio's `RwLock` is a FIFO queue with compatible grants. Its internals are not modelled. `MAX_READS` is not reached.
* In Sys.v receiving a command is one step, and so is finishing or failing a write. Net.v refines this to bytes and
  C65 proves that the behaviours are the same.
* The library never aborts its tasks. Cancel.v adds the application dropping the future of `handler`, `add_device` or
  `remove_device` at an await (C77-C79); the other files leave it out.
* Memory exhaustion is not modelled; C12 counts the reservations.
* `usize` has 64 bits.
* `HashMap` iteration order is left open where it could matter (`remove_missing` is order-independent).
* libusb/nusb: a transfer is a log entry plus the answer of an arbitrary oracle. rusb handlers of one device share one
  `DeviceHandle` in the code and have one log each in the model. In any single execution the answers a handler got are
  those of some oracle of its own log, whatever else they depended on, and the theorems hold for all oracles. Time-outs
  are not modelled.
* `rusb::Speed` and `nusb::Speed` are numbered 0, 1, … in the order of the documentation of rusb 0.9 and nusb 0.1; the
  libraries are not part of the repository, so this is trusted (C83).
* What rusb and nusb show of a device's descriptors (SpecReal.v: versions, transfer types, packet sizes, string indices,
  first alternate settings) is trusted too (C105).
* The inner mutex of the host handlers around the library handle is not modelled (see HostHandlers.v).
* Logging (`log` macros), `Debug`/serde derives are not modelled; in the
  examples the second of sleep between two rounds may last any time. In most files
  "a client may connect at any time" (`LConnect`) stands for the accept loop. The unit tests of the repository are
  replayed on the model in RepoTests.v, as a check of the transcription; they prove nothing beyond that.

## 3. Layout of the development

`Spec*.v`: specifications. `*Proofs.v`, `*Facts.v`: lemmas. `Props*.v`: the theorems `Cnn_...`, each followed by
`Print Assumptions` and by `Example`s showing a concrete case that meets the hypotheses. `Examples.v`: the concrete
devices and handlers used there.

Naming: `_refuted` = the property as stated is false of the code, and the theorem proves its negation with a witness.
`_partial` = the part that does hold, with the exact extra hypotheses. Both count as "partial" in MANIFEST.json.

## 4. Properties

### C01 — Command encode/decode round trip (proved)

Encoding any well-formed command with UsbIpCommand::to_bytes and reading it back with UsbIpCommand::read_from_socket yields the same command and leaves every byte that follows it in the stream unread.

* Modelled: `read_from_socket` (Protocol.v) as a program over "read n bytes" and "allocate n bytes", run by `run_rd`; `command_to_bytes`.
* Proof: case analysis on the command; `of_be (be32 n) = n` and take/drop lemmas (CodecProofs).
* Theorems: `C01_command_roundtrip`
* Result: Every well-formed command, debug and release build, any following bytes.

### C02 — The reader accepts only what the wire layout says, and consumes exactly that (proved)

Whenever read_from_socket returns a command, the bytes consumed are exactly one protocol message with the documented layout for that command (all fields at their documented big-endian offsets, payload length equal to transfer_buffer_length when the transfer is not IN, 16 bytes per iso packet), and the rest of the stream is untouched.

* Modelled: `read_from_socket` (Protocol.v) as a program over "read n bytes" and "allocate n bytes".
* Proof: inversion of every read, compared with the field-at-offset relation `cmd_layout` of SpecWire, which mentions no reader and no encoder; self-delimitation from determinism of the layout.
* Theorems: `C02_reader_exact`, `C02_unambiguous`
* Result: Exact characterisation against the separately written layout cmd_layout; messages are self-delimiting.

### C03 — A truncated command is never executed (proved)

If the peer closes the stream strictly inside a command, the reader reports UnexpectedEof and no command is produced, at whichever byte the stream is cut.

* Modelled: `read_from_socket` (Protocol.v) as a program over "read n bytes" and "allocate n bytes"; a stream ends with EOF or a socket error.
* Proof: a prefix cannot satisfy the length computed by the layout; induction over the reads.
* Theorems: `C03_truncated_never_executed`
* Result: Every proper prefix (including the empty one) of every valid message, for EOF and for a socket error.

### C04 — Exactly which version/command words are rejected, and with which error (proved)

A message whose version half-word is neither 0 nor 0x0111, or whose command half-word is not one of the four known codes, is rejected with an error of kind Other naming the offending value, before anything else is read; every other message is never rejected for that reason.

* Modelled: `read_from_socket` (Protocol.v) as a program over "read n bytes" and "allocate n bytes".
* Proof: case analysis on the two half-words; error kinds through `kind_of`.
* Theorems: `C04_rejection_exact`
* Result: Exact (iff) for both rejections, and for the error kind.

### C05 — Independence from TCP segmentation (proved)

How the network splits the byte stream into reads never changes which commands are read, where the next one starts or which error is reported.

* Modelled: `read_chunks`/`run_rd_chunks`: tokio's `read_exact` over an arbitrary list of chunks (also empty ones).
* Proof: simulation between the chunked and the flat interpreter, by induction on the program; lifted to sessions.
* Theorems: `C05_segmentation_independent`, `C05_sessions`
* Result: One message and whole sessions.

### C06 — Basic header round trip (proved)

UsbIpHeaderBasic::from_bytes inverts to_bytes and to_bytes inverts from_bytes, with the five fields at big-endian offsets 0,4,8,12,16; in a debug build from_bytes panics exactly when direction is not 0 or 1.

* Modelled: `header_from_bytes`, `header_to_bytes`.
* Proof: byte-order arithmetic.
* Theorems: `C06_header_roundtrip`, `C06_header_roundtrip_bytes`
* Result: Both directions of the roundtrip; a debug build panics exactly for directions other than 0 and 1.

### C07 — RET_SUBMIT / RET_UNLINK / import replies are decodable by a client (proved)

For every response, the bytes produced by UsbIpResponse::to_bytes have each field at its documented offset and their total length is the documented one (48+payload+iso, 48, 320 or 8), so a client that knows the request can delimit and decode them.

* Modelled: `response_to_bytes`, `device_to_bytes`, the `UsbIpResponse` constructors.
* Proof: offset by offset, against `u32_at`, `u16_at` of SpecWire.
* Theorems: `C07_ret_submit_layout`, `C07_ret_unlink_layout`, `C07_import_layout`, `C07_import_any_status`, `C07_constructors`, `C07_encoding_total`
* Result: Byte offsets of every reply; encoding is total in release and in debug exactly when reply_ok.

### C08 — Device list replies are decodable by a client (proved)

A client following the documented OP_REP_DEVLIST layout recovers from the reply, in order, every available device's path, bus id, numbers, ids, bcd, class triple, configuration data and interface class triples, and consumes exactly the whole reply, provided each device has at most 255 interfaces and its path/bus id fit in 256/32 bytes.

* Modelled: the OP_REP_DEVLIST branch of `response_to_bytes`.
* Proof: an independent client-side decoder (SpecWire) is run on the reply; induction over devices and interfaces; strings through an independent UTF-8 decoder (SpecText).
* Theorems: `C08_devlist_decodable`, `C08_devlist_encodable`
* Result: Within the documented limits of the format; decoder written from the protocol document.

### C09 — Device lists stay decodable without any limit on interfaces (partial)

The device list remains decodable for every number of interfaces per device.

* Modelled: same as C08, `interfaces.len() as u8`.
* Proof: two devices with different interface lists and equal encodings, built with 256 interfaces: no decoder can exist. Partial: C08 and, conversely, induction over the list (the parser finds `len mod 256` interfaces).
* Theorems: `C09_devlist_unlimited_refuted`, `C09_devlist_partial`
* Result: Refuted: the one-byte interface count wraps at 256, and no decoder at all exists. Partial: a list is decodable exactly when every device in it has at most 255 interfaces.

### C10 — SETUP packets are parsed little-endian (proved)

SetupPacket::parse returns bmRequestType, bRequest and the three 16-bit words read little-endian from bytes 2-3, 4-5, 6-7, and every field fits its width.

* Modelled: `setup_parse`.
* Proof: bit arithmetic (`N.lor`/`N.shiftl` to addition).
* Theorems: `C10_setup_little_endian`
* Result: All 8-byte setup packets.

### C11 — Pipelined commands are read back in order (proved)

Concatenating the encodings of any sequence of well-formed commands and reading from that stream repeatedly yields exactly that sequence, then UnexpectedEof.

* Modelled: `read_from_socket` (Protocol.v) as a program over "read n bytes" and "allocate n bytes", iterated.
* Proof: induction on the list of commands with C01.
* Theorems: `C11_pipelining`
* Result: Any number of commands, plus determinism of the session.

### C12 — Memory reserved for a command is bounded by what was received (partial)

While reading a command the server never reserves a buffer larger than the bytes the peer has already sent plus a fixed constant.

* Modelled: `RAlloc` nodes of the reader = the two `vec![0; n]`; `rd_allocs` lists (requested, received so far).
* Proof: witness message for the refutation; case analysis for the exact list of reservations.
* Theorems: `C12_alloc_bounded_refuted`, `C12_alloc_bounded_partial`
* Result: Refuted: 48 bytes reserve 64 GiB. Partial: exactly which buffers are reserved and after how many bytes.

### C13 — One reply per command, in order, echoing the request (proved)

On every connection the bytes written are the concatenation, in request order, of exactly one reply per command fully processed; each submit/unlink reply carries the request's seqnum, devid, direction and ep unchanged and the matching reply code.

* Modelled: `handler`/`conn_loop` (Conn.v): one connection run without interference, with a write budget.
* Proof: induction over the messages; the expected transcript is defined from the per-command replies.
* Theorems: `C13_one_reply_per_command`
* Result: Any sequence of messages, with the state the connection is in; one reply each, in order, header echoed.

### C14 — UNLINK is always acknowledged after the unlinked URB completed (proved)

A CMD_UNLINK is answered by a RET_UNLINK with status 0 and the unlink's own seqnum, changes no device or server state, needs no imported device, and any earlier submit on that connection has been answered before it.

* Modelled: `serve_unlink`, `conn_loop`.
* Proof: direct, plus the transcript of C13.
* Theorems: `C14_unlink_acknowledged`, `C14_earlier_answered_first`
* Result: Every RET_UNLINK has status 0, whatever was unlinked; the reply of an earlier submit precedes it.

### C15 — Submitting without an imported device ends only that connection (proved)

A CMD_SUBMIT on a connection with no imported device produces no reply bytes, aborts that connection's task and leaves all devices and handler states unchanged.

* Modelled: `serve_submit` with `cur = None` (the `unwrap` of lib.rs:465).
* Proof: computation of one loop iteration.
* Theorems: `C15_submit_needs_import`
* Result: A submit before an import panics the task: no reply, nothing else changed.

### C16 — URBs to unknown endpoints are refused without side effects (proved)

A submit whose endpoint (number with direction bit) is neither endpoint zero nor an endpoint of the imported device is answered with a RET_SUBMIT of status 1, actual_length 0 and no payload, and no handler is invoked.

* Modelled: `find_ep`, `serve_submit`.
* Proof: endpoint lookup characterised by an independent membership relation.
* Theorems: `C16_unknown_endpoint_refused`
* Result: RET_SUBMIT with status 1, world unchanged.

### C17 — Handler errors become failed RET_SUBMITs (proved)

If the handler returns an error, the reply is a RET_SUBMIT with status 1, actual_length 0 and no payload, and the connection keeps serving the next command.

* Modelled: `serve_submit` over arbitrary handlers.
* Proof: case analysis on the handler's result.
* Theorems: `C17_handler_error_is_failure`
* Result: Any handler error gives status 1 and zero length.

### C18 — Handler data reaches the client unmodified (proved)

If the handler returns data for an IN transfer, the reply is a RET_SUBMIT with status 0, actual_length equal to the number of bytes, followed by exactly these bytes.

* Modelled: `serve_submit` over arbitrary handlers.
* Proof: case analysis; length modulo 2^32 excluded by the hypothesis that the data fits in 32 bits.
* Theorems: `C18_handler_data_unmodified`
* Result: All handlers, all transfer kinds; the bytes and the length are exactly those returned.

### C19 — Replies to OUT transfers never carry a payload (partial)

The reply to a submit with direction OUT is exactly 48 bytes, so the client (which reads no payload for OUT) stays in sync.

* Modelled: `handle_urb`, `serve_submit`.
* Proof: witness request, generalised to every device; `quiet` handlers for the partial theorem. The exact theorem counts the bytes of every reply (SpecSize.v, PropsSize.v).
* Theorems: `C19_out_without_payload_refuted`, `C19_set_configuration_payload`, `C19_out_without_payload_partial`, `C19_payload_partial`
* Result: Refuted: SET_CONFIGURATION with wLength >= 1, on every device (C19_set_configuration_payload), and handlers that return data (see C81). Partial: quiet handlers, all other requests. C19_payload_partial: for all handlers, exactly which replies carry a payload: those to submits that bring something (`brings` in SpecSize.v); a debug build aborts the connection instead.

### C20 — Replies never exceed the buffer the client offered (partial)

The actual_length of an IN reply never exceeds the transfer_buffer_length of the request (as the handler trait documentation demands).

* Modelled: `handle_urb`, `cdc_handle_urb`, `kb_handle_urb`.
* Proof: witness with the bundled CDC handler, all device descriptor requests, all report descriptor requests; case analysis over all reply paths for the partial theorem. The exact theorem counts the bytes of every reply (SpecSize.v, PropsSize.v).
* Theorems: `C20_reply_fits_buffer_refuted`, `C20_reply_fits_buffer_partial`, `C20_descriptor_ignores_buffer`, `C20_keyboard_ignores_lengths`, `C20_reply_size_partial`
* Result: Refuted: CDC bulk IN ignores the buffer length; so do descriptor replies (cut to wLength only) and the report descriptor of the keyboard (not cut at all). Partial: handlers that honour the limit, descriptors below 64 KiB, wLength within the buffer. C20_reply_size_partial: for all handlers, exactly how large every reply is (`brings` in SpecSize.v), so it exceeds the buffer exactly when the descriptor, cut to wLength, or the data of the handler does.

### C21 — How a connection ends (proved)

handler returns Ok exactly when the stream ends with UnexpectedEof at a command read, returns that error for any other read error, returns the write error if a reply cannot be written completely, and otherwise only stops by panicking; it never stops while input commands keep succeeding.

* Modelled: `conn_loop` with a write budget.
* Proof: induction on the input; the bytes written are described by `messages` and `answers` (SpecConn).
* Theorems: `C21_how_a_connection_ends`
* Result: Exact list of endings and the bytes written in each.

### C22 — An URB reaches exactly the endpoint and handler it addresses (proved)

A non-control submit invokes exactly the handler of the first interface that declares the addressed endpoint, once, with the request's own endpoint, length, setup packet and payload; no other handler's state changes.

* Modelled: `find_ep`, `handle_urb`, `call_intf`; a handler is an arbitrary state machine.
* Proof: the relations `routed`, `invoked` and `delivered` say which handler is called with what; frame property for all other cells.
* Theorems: `C22_reaches_addressed_handler`
* Result: Exactly one handler call, with exactly the request; frame for every other handler.

### C23 — Endpoint numbers are not aliased (partial)

Two submits with different endpoint numbers on the wire never address the same endpoint.

* Modelled: the loop of `handler` with `real_ep` and `as u8` (lib.rs:467-472).
* Proof: witness; one submit run through the loop (`submit_effect`); bit arithmetic below 128.
* Theorems: `C23_no_aliasing_refuted`, `C23_no_aliasing_partial`, `C23_same_endpoint_partial`
* Result: Refuted: endpoint 257 aliases endpoint 1. Partial: below 128 with direction 0 or 1, the one handler a submit can reach is called with the endpoint of exactly that number and direction.

### C24 — Exclusive import (proved)

Provided no two devices on the server share a bus id, at every moment each device is held by at most one connection, and while a connection holds it no other connection can import it, whatever the interleaving of connections, add_device and remove_device calls.

* Modelled: Sys.v, all steps.
* Proof: invariant relating the in-use table to the connections' current ids, by induction over schedules; "held" is read off the event history only (SpecSys).
* Theorems: `C24_exclusive`, `C24_submits_use_held_device`
* Result: Any number of connections and API calls, any schedule; "held" is defined from the history of replies only. URBs of a connection are executed on the device it holds.

### C25 — No device is lost or duplicated (proved)

Provided bus ids are unique, after any schedule the devices that are available or in use are exactly the initial ones plus those added minus those successfully removed, each once.

* Modelled: Sys.v.
* Proof: ledger defined from events; permutation invariant (DevProofs).
* Theorems: `C25_conserved`
* Result: Available plus in-use devices are a permutation of the ledger (initial + added - removed), ids without duplicates, after any schedule.

### C26 — A device is released when its client disconnects (partial)

When reading from the client fails (end of stream or socket error), the device the connection imported becomes available again and can be imported, and this never panics if bus ids are unique.

* Modelled: Sys.v: PRelUsedW/PRelAvailW, release_device.
* Proof: deadlock schedule plus persistence invariant for the refutation; otherwise analysis of stuck states.
* Theorems: `C26_release_partial`, `C26_completes_partial`, `C26_released_refuted`
* Result: Refuted: a disconnect can deadlock with remove_device and then the device is never released. Partial: it never fails in any other way; the release is one step that restores the device, which can be imported again; it happens whenever the system comes to rest with no writer and no such remove_device call.

### C27 — A device is released however its connection ends (partial)

Whenever a connection ends, for whatever reason (disconnect, write error, panic while serving a URB, importing something else), the device it had imported becomes available again.

* Modelled: Sys.v: all ways to reach PEnd.
* Proof: classification by case analysis over steps; permanence by an invariant.
* Theorems: `C27_leak_permanent`, `C27_ends_partial`, `C27_reimport_leaks_partial`, `C27_always_released_refuted`
* Result: Refuted: a write error, a panic, or importing another device leaves the device in the in-use table for ever (proved permanent). Partial: exact classification of every way a connection can end; only failed reads release.

### C28 — A failed import changes nothing (partial)

An OP_REQ_IMPORT for a bus id that is not available is answered with the 8-byte status-1 reply and leaves the server's devices and the connection's current import unchanged.

* Modelled: Sys.v: import path, lib.rs:430-454.
* Proof: one-step analysis; witness run for the refutation.
* Theorems: `C28_on_the_wire_partial`, `C28_failed_import_partial`, `C28_unchanged_refuted`
* Result: Refuted: the connection loses its own device. Partial: the reply, the server, the handlers and the other connections are as stated, and the connection is left without a device (in the concurrent server and on the wire).

### C29 — The device list shows exactly the importable devices (proved)

OP_REP_DEVLIST lists exactly the devices that are currently available, in order, with a correct count: an imported device disappears from it and reappears (at the end) when released; listing changes no state.

* Modelled: Sys.v and `op_rep_devlist`.
* Proof: inductive relation `listed` on histories; decodability by C08.
* Theorems: `C29_list_is_available`, `C29_list_decodable`, `C29_listed_iff_importable`
* Result: The list is determined by the history (inductive specification "listed"), is decodable by a client, and consists exactly of the importable devices.

### C30 — remove_device semantics (proved)

remove_device removes the first available device with that bus id and returns Ok; if none is available but one is in use it fails with kind Other and changes nothing; otherwise it fails with NotFound and changes nothing; the answer is consistent with a single instant of the concurrent execution.

* Modelled: `remove_available`, `remove_missing`, PRemAvailW/PRemUsedR.
* Proof: lock ownership implies that the two lookups see one state.
* Theorems: `C30_remove_device`
* Result: Holds without assumptions on bus ids; the answer describes the state of the step at which the call takes effect, also when it waited between its two lookups.

### C31 — add_device semantics (proved)

After add_device(d) completes, d is the last available device; every other device keeps its position and status.

* Modelled: `add_device`, PAddAvailW.
* Proof: one-step analysis plus C35.
* Theorems: `C31_add_device`, `C31_add_completes`
* Result: Holds without assumptions on bus ids.

### C32 — Sharing a bus id is safe (partial)

Exclusivity, conservation and panic-free release also hold when several devices have the same bus id (as every UsbDevice::new has).

* Modelled: Sys.v with devices sharing ids; `new_device`; SpecDup.v: devices entrusted as a relation (a removal may take any of the same id), ids that are out.
* Proof: concrete run for the refutation; invariant over runs (DupProofs.v) for the partial; `new_device` computed.
* Theorems: `C32_shared_ids_partial`, `C32_clash_loses_a_device`, `C32_distinct_ids_never_clash`, `C32_duplicates_refuted`, `C32_new_devices_share_id`
* Result: Refuted by a two-client run with two devices of the same id (every device made by UsbDevice::new has the same id). Partial: in every run in which no device is handed out while another of its id is out, exclusivity, conservation and panic-free release hold; handing one out then loses the device already out, on the spot; with distinct ids it never happens. Missing: the claim for runs with such a clash, where it is false.

### C33 — Which device an import request selects (proved)

An import request selects the first available device whose bus id bytes equal the request's 32-byte field up to its first NUL (or all 32 bytes); a device is selectable by some request if and only if its bus id has at most 32 bytes and contains no NUL.

* Modelled: `until_nul`, `take_first`, `import_device`.
* Proof: list induction; UTF-8 injectivity (TextProofs).
* Theorems: `C33_selection`, `C33_unambiguous`, `C33_selectable`
* Result: Selection by the field up to the first NUL; fields name at most one id; selectable iff at most 32 bytes and no NUL.

### C34 — Freedom from deadlock (partial)

No schedule of connections and API calls deadlocks on the server's locks: if nobody is blocked writing to a socket, every pending operation can complete.

* Modelled: the two FIFO `RwLock`s of Sys.v.
* Proof: deadlocking schedules with persistence proofs; wait-for analysis shows that only remove_device closes a cycle.
* Theorems: `C34_deadlock_free_refuted`, `C34_only_deadlock_partial`
* Result: Refuted by two schedules; the deadlock is permanent and stops every later operation. Partial: the cycle through remove_device is the only one.

### C35 — Progress without remove_device (proved)

In a system where no remove_device call is waiting for the in-use table, every schedule of internal steps terminates and ends with every lock request granted and every operation complete, except those queued behind a connection blocked writing to its own socket.

* Modelled: same.
* Proof: measure decreasing with every internal step; lock-order argument (used before available) without remove_device.
* Theorems: `C35_progress`, `C35_completes`
* Result: Termination measure for internal steps plus an analysis of stuck states.

### C36 — A slow client cannot block others (partial)

A client that stops reading its socket does not prevent other clients from being served.

* Modelled: PWrite keeps its guards (lib.rs:411-424, 454, 507).
* Proof: concrete runs plus persistence; positive part by computing the internal steps.
* Theorems: `C36_stall`, `C36_slow_client_refuted`, `C36_readers_partial`
* Result: Refuted: one client that does not read its reply blocks everybody once an import is requested. Partial: submits and unlinks are still served while no import or release is requested.

### C37 — A crashing connection does not take locks with it (proved)

When a connection ends in any way (including a panic while serving), it holds and waits for no server lock afterwards, and other connections' imports are unchanged.

* Modelled: drop of guards on return, `?` and unwinding.
* Proof: invariant `locks_ok`.
* Theorems: `C37_no_locks`, `C37_others_unaffected`
* Result: For every kind of end, including panics.

### C38 — Concurrent operations are atomic (proved)

Every concurrent execution has the same effect on the devices and the same replies as some sequential order of the individual operations (import, release, list, submit, add, remove), consistent with real-time order.

* Modelled: Sys.v.
* Proof: forward simulation to a sequential machine (SpecLin) at the effect points.
* Theorems: `C38_atomic`, `C38_real_time`, `C38_executions`
* Result: Every execution corresponds to a sequential execution of the same operations in the order of their effect points, which lie between request and completion.

### C39 — Device descriptor content (proved)

GET_DESCRIPTOR(device) answers the 18-byte descriptor whose fields are the device's own (USB 2.0 table 9-8 layout), cut to wLength bytes.

* Modelled: `get_descriptor` and the descriptor builders of Urb.v.
* Proof: byte by byte against the USB table.
* Theorems: `C39_device_descriptor`
* Result: All devices and all wLength.

### C40 — Configuration descriptor content (proved)

GET_DESCRIPTOR(configuration) answers a descriptor tree from which a USB host recovers the configuration value and, in order, every interface (number, class triple, string index, class-specific bytes) and every endpoint (address, attributes, max packet size, interval), with wTotalLength equal to the real length, cut to wLength bytes; for at most 255 interfaces, at most 255 endpoints each, well-formed class-specific bytes and a total of at most 65535 bytes.

* Modelled: `get_descriptor` and the descriptor builders of Urb.v.
* Proof: a host-side descriptor parser (SpecDesc) is run on the bytes; induction over interfaces and endpoints.
* Theorems: `C40_configuration_descriptor`
* Result: A host parser written from USB 2.0 ch. 9 recovers exactly the configured tree; uniqueness of the reading.

### C41 — String descriptor content (proved)

GET_DESCRIPTOR(string, i) for an index in use answers bLength, type 3 and the UTF-16LE encoding of exactly the string stored there (decoding it gives back the original Unicode string), cut to wLength; index 0 answers the language table; an unused index is an error.

* Modelled: `get_descriptor` and the descriptor builders of Urb.v, `utf16`.
* Proof: independent UTF-16 decoder (SpecText).
* Theorems: `C41_string_descriptor`, `C41_language_table`
* Result: All strings up to 126 UTF-16 units, plus the missing-index error.

### C42 — String descriptors of long strings (partial)

The bLength of a string descriptor equals its real length for strings of any length, and requesting one never aborts the connection.

* Modelled: `string_blength` with debug/release arithmetic.
* Proof: arithmetic; witness strings.
* Theorems: `C42_long_strings_refuted`, `C42_long_strings_wrong`, `C42_long_strings_partial`
* Result: Refuted: strings of 127 units or more get a wrong bLength, or (debug build, exactly when the number of units modulo 256 is at least 127) panic. Partial: below that.

### C43 — Standard descriptor replies are prefixes bounded by wLength (partial)

The reply to a standard GET_DESCRIPTOR request is the full descriptor if it fits in wLength bytes and otherwise exactly its first wLength bytes.

* Modelled: `limit_to`.
* Proof: witness device with 65536 descriptor bytes; exact condition by arithmetic on `as u16`.
* Theorems: `C43_prefix_of_descriptor_refuted`, `C43_prefix_of_descriptor_partial`
* Result: Refuted: 65536 bytes answer a 9-byte request. Partial: the exact condition (the descriptor fits, or wLength is below its length modulo 64 KiB, hence always below 64 KiB), and errors independent of wLength.

### C44 — String indices stay consistent through any sequence of name changes (proved)

After any sequence of set_/unset_ name calls and with_interface calls on a fresh device, each name that is set is retrievable through the index its descriptor field reports, unset names report index 0, different names never share an index, interface names are never disturbed, and each call returns the previous name exactly when one was set.

* Modelled: `new_string`, `remove_string`, eight setters, `with_interface`.
* Proof: abstract state: finite map of names (SpecNames); refinement by induction over the calls (PoolProofs).
* Theorems: `C44_names_consistent`
* Result: All call sequences that need at most 254 strings at once.

### C45 — Running out of string indices is reported (partial)

Allocating a string when no index is left panics with 'string poll exhausted', in every build, and never returns index 0.

* Modelled: `find_vacant` with u8 wrap-around; fuel proved irrelevant from 256 on.
* Proof: pool with all indices used; reached by public calls.
* Theorems: `C45_exhaustion_reported_refuted`, `C45_exhaustion_reached`, `C45_exhaustion_reported_partial`
* Result: Refuted: index 0 handed out, endless loop, overflow panic; all three reached from public calls. Partial: least vacant index below 255.

### C46 — BCD versions are reported faithfully (partial)

The bcdDevice/bcdUSB half-words reported in descriptors and device lists encode the device's version in BCD (major, minor and patch nibbles), e.g. a Version converted from a bcd half-word is reported back as that half-word.

* Modelled: `version_of_bcd`, `device_to_bytes`, `device_descriptor`, the loop of `handler`.
* Proof: witness 1.2.0 run through `handler`; C71 for one request, then arithmetic.
* Theorems: `C46_bcd_reported_refuted`, `C46_rusb_versions`, `C46_bcd_reported_partial`
* Result: Refuted on the wire: 1.2.0 is sent as 0x0102. Partial: in the import reply and the device descriptor, faithful exactly when minor and patch are zero.

### C47 — verify_descriptor decides well-formedness (partial)

verify_descriptor returns normally exactly when the bytes split into consecutive blocks whose first byte is their own length, and panics otherwise.

* Modelled: `verify_descriptor` (Util.v); divergence is proved to mean "never ends".
* Proof: induction on blocks.
* Theorems: `C47_verify_descriptor_refuted`, `C47_verify_descriptor_partial`
* Result: Refuted: a zero length byte loops for ever. Partial: exact characterisation of return, panic and divergence.

### C48 — Exactly which control requests abort the connection (proved)

handle_urb panics exactly for: control requests to a recipient other than device/interface, device requests it does not implement when there is no device handler, interface requests with an out-of-range interface number, endpoints with unknown attributes, non-control transfers on endpoint zero, over-long strings in debug builds, a poisoned handler, or a handler that itself panics.

* Modelled: `handle_urb`, `control_dispatch`, mutex poisoning.
* Proof: complete case analysis against the relation `aborting` of SpecUrb.
* Theorems: `C48_what_aborts`, `C48_what_aborts_on_the_wire`
* Result: Exact (iff) characterisation, at handle_urb and on the wire.

### C49 — Standard requests a USB host may send never abort the connection (partial)

Every standard device/interface/endpoint request of USB 2.0 chapter 9 (e.g. GET_STATUS, GET_CONFIGURATION, CLEAR_FEATURE) to a simulated device gets a reply.

* Modelled: `handle_urb`.
* Proof: witness requests; exact condition otherwise.
* Theorems: `C49_standard_requests_answered_refuted`, `C49_standard_requests_answered_partial`
* Result: Refuted: GET_STATUS and endpoint requests abort. Partial: device/interface recipients with a device handler.

### C50 — Interface requests reach the interface the host saw (proved)

A control request with interface recipient and wIndex = n is delivered to the handler of the interface whose descriptor carries bInterfaceNumber n.

* Modelled: `control_dispatch` and `configuration_descriptor`.
* Proof: interface numbers are parsed out of the descriptor bytes sent to the host; a later submit naming one of them invokes that handler and no other, through the connection loop.
* Theorems: `C50_interface_numbers`
* Result: Numbers recovered from the descriptor bytes sent to the host.

### C51 — Keyboard events are delivered once, in order (proved)

Reading the keyboard's interrupt IN endpoint any number of times, interleaved arbitrarily with queueing key events, delivers each queued event exactly once in queueing order, each followed by a key-release report before the next one.

* Modelled: `kb_handle_urb`, `kb_push`; wire level through `handler`.
* Proof: refinement to a queue; induction over operations.
* Theorems: `C51_keys_in_order`, `C51_keys_on_the_wire`
* Result: All interleavings, including control requests and OUT transfers; also composed with the connection on the wire.

### C52 — Keyboard reports match the report descriptor (partial)

Every non-empty input report has the length announced by the report descriptor.

* Modelled: `keyboard_report_descriptor`, `kb_handle_urb`.
* Proof: small HID report-descriptor parser computes the announced size.
* Theorems: `C52_report_length_refuted`, `C52_report_length_partial`
* Result: Refuted: the release report has 6 bytes, 8 are announced (computed by a HID report-descriptor parser). Partial: press reports.

### C53 — ASCII to key code (proved)

UsbHidKeyboardReport::from_ascii maps a-z, 1-9, 0, CR, LF to the HID usage ids of those keys without modifiers and panics for every other byte; distinct characters give distinct key codes except CR and LF.

* Modelled: `from_ascii`.
* Proof: case analysis against the usage table.
* Theorems: `C53_ascii`
* Result: All 256 bytes against the usage table.

### C54 — A client cannot disable a shared handler (partial)

No request of a client can make later uses of an interface handler (by other clients or by the application) fail.

* Modelled: poisoning in `call_intf`; Sys.v for "in every schedule".
* Proof: persistence invariant; exact list of panicking requests.
* Theorems: `C54_client_disables_handler_refuted`, `C54_client_disables_handler_partial`, `C54_keyboard_panics_iff`
* Result: Refuted: GET_DESCRIPTOR(HID) poisons the handler for good, in every schedule. Partial: handlers that never panic; exact list of panicking keyboard requests.

### C55 — Serial data is delivered once, in order (proved)

Polling the CDC bulk IN endpoint any number of times, interleaved arbitrarily with the application queueing bytes, delivers exactly the queued bytes, each once, in order; interrupt polls and bulk OUT transfers do not consume any.

* Modelled: `cdc_handle_urb`, `cdc_push`, `cdc_endpoints`.
* Proof: refinement to a byte queue; on the wire for a poll of endpoint 2 IN.
* Theorems: `C55_serial_in_order`, `C55_serial_on_the_wire`
* Result: All interleavings of queueing, bulk IN, bulk OUT and interrupt transfers.

### C56 — Only bulk IN consumes serial data (partial)

Serial data is handed out only on the bulk IN endpoint.

* Modelled: `cdc_handle_urb`, the loop of `handler`.
* Proof: witness; case analysis; `submit_effect`.
* Theorems: `C56_only_bulk_in_refuted`, `C56_only_bulk_in_partial`, `C56_on_the_wire_partial`
* Result: Refuted: a control IN request to the interface drains the buffer. Partial: exact characterisation of the handler; on the wire, only endpoint 2 IN and control requests to the interface touch the queue.

### C57 — libusb passthrough forwards exactly the client's transfer (partial)

For a host device shared through libusb, each URB causes exactly one libusb transfer of the endpoint's type and direction with the client's own parameters and payload (none for isochronous endpoints); IN data is returned unmodified and never exceeds the requested length.

* Modelled: `rusb_intf_handle_urb`, `rusb_dev_handle_urb`; libusb is an arbitrary oracle and a log.
* Proof: log grows by exactly the specified call (SpecHost).
* Theorems: `C57_forwards_exactly_refuted`, `C57_forwards_exactly_partial`, `C57_device_requests_partial`, `C57_isochronous`, `C57_every_kind`
* Result: Refuted: requests addressed to an endpoint abort the connection instead of being forwarded. Partial: every URB that reaches a handler causes exactly one transfer with the client's parameters; isochronous none.

### C58 — Host transfer failures are reported to the client (partial)

If the host transfer fails, the client's URB fails.

* Modelled: same.
* Proof: witness oracle; case analysis.
* Theorems: `C58_failures_reported_refuted`, `C58_failures_reported_partial`, `C58_device_failures_partial`
* Result: Refuted: a failed host transfer is reported as success. Partial: the reply then carries no data.

### C59 — nusb passthrough (partial)

For a host device shared through nusb, control URBs with a standard/class/vendor type and a device/interface/endpoint/other recipient are forwarded with the same type, recipient, request, value, index and data; all other control types/recipients and every bulk or interrupt URB abort the connection.

* Modelled: `nusb_*_handle_urb`.
* Proof: case analysis on type and recipient bits.
* Theorems: `C59_nusb_passthrough_refuted`, `C59_nusb_passthrough_partial`, `C59_nusb_device_requests_partial`, `C59_nusb_windows_refuted`
* Result: Refuted for endpoint and other recipients, which the library aborts before nusb sees them. Partial: exact for requests that reach the handlers.

### C60 — Host devices get distinct, importable bus ids (proved)

Bus ids built for host devices are distinct for distinct (bus, address) pairs, contain no NUL and fit in the protocol's 32-byte field, so each shared host device can be imported individually; paths fit their 256-byte field.

* Modelled: `fmt_dec`, `host_bus_id`, `host_path`.
* Proof: injectivity of decimal notation and of "-" separated fields.
* Theorems: `C60_distinct_bus_ids`, `C60_nusb_distinct_bus_ids`
* Result: Distinct (bus, address) pairs give distinct, importable ids, for libusb and nusb lists of any length.

### C61 — Host enumeration keeps every usable device (partial)

Devices that cannot be opened or described are skipped, all others are shared in order with their ids, classes, endpoints and strings as the host reports them.

* Modelled: `with_rusb_device_handles`, `with_nusb_devices`, `new_from_host_with_filter`.
* Proof: records `rusb_reported` and `nusb_reported` relate reported and shared devices; induction over the list.
* Theorems: `C61_enumeration_refuted`, `C61_enumeration_partial`, `C61_nusb_enumeration_partial`, `C61_nusb_enumeration_refuted`, `C61_filter_partial`, `C61_new_from_host_partial`, `C61_separate_handlers`
* Result: Refuted: one unreadable string aborts the whole enumeration; interface names point into the wrong string table; the nusb path drops class-specific bytes, the USB version, the device number and the size of endpoint 0. Partial: exact success condition and everything else as reported.

### C62 — The HID descriptor matches the report descriptor (proved)

The HID class descriptor in the configuration announces HID 1.11, one report descriptor and exactly the length of the report descriptor that GET_DESCRIPTOR(report) on the interface returns; fetching it does not change the keyboard.

* Modelled: `kb_csd`, `kb_handle_urb`, GET_DESCRIPTOR through `handle_urb`.
* Proof: wire-level computation, length below 64 KiB.
* Theorems: `C62_hid_descriptor`
* Result: Wire level, any report descriptor below 64 KiB.

### C63 — Class-specific descriptors of the bundled handlers are well-formed (proved)

The class-specific descriptors of the keyboard and of the serial port are sequences of well-formed descriptor blocks without interface or endpoint descriptors, so configurations built from them can be parsed back.

* Modelled: `kb_csd`, `cdc_csd`.
* Proof: blocks of SpecDesc.
* Theorems: `C63_class_descriptors`
* Result: Blocks parsed by the independent descriptor grammar of SpecDesc.

### C64 — Every client sees a well-formed dialogue, whatever the interleaving and fragmentation (proved)

With any number of connections served concurrently, and bytes arriving and leaving in pieces of any size at any time: what each client has been sent is exactly the replies to the complete messages it sent so far, in order, followed by at most a prefix of the reply to its next message; a connection that waits for input has nothing complete left unread and has answered everything; and a complete message that arrived at a waiting connection is received after finitely many polls of its reader.

* Modelled: Net.v: per connection a socket with arrived chunks, the suspended rest of `read_from_socket`, the partly filled buffer and the write position; steps for arrival, close, one poll of the reader, one partial write.
* Proof: invariant `talk` relates the history of bytes to the position of the task; the suspended reader is related to what it has consumed (`resumes`); progress of the reader by induction on the program (`polls_finish`).
* Theorems: `C64_dialogue`, `C64_nothing_left_unread`, `C64_message_is_received`, `C64_replies_as_served`
* Result: All three theorems hold at every moment of every execution of the byte-level server (Net.v).

### C65 — Bytes add no behaviour: the server on byte streams and the server on whole commands do the same (proved)

Every execution of the concurrent server on byte streams has the same observable events and ends in the same server state as an execution in which each command is received and each reply is finished in one step, where received commands are well-formed and read errors are those the protocol defines; and every such command-level execution is realised by some arrival of bytes.

* Modelled: Net.v and Sys.v.
* Proof: each byte-level step is a command-level step or invisible there; conversely a simulation that delivers each command as one chunk and polls until the reader settles.
* Theorems: `C65_same_behaviours`
* Result: The two sets of behaviours are equal.

### C66 — Clients are isolated from each other (proved)

The state of a handler changes only when the application changes it or when a URB is served for the connection holding a device that uses it. If a device shares no handler with another one, the connection holding it gets, whatever other clients do at the same time, exactly the answers it would get if its URBs were served with nobody else around, and leaves the device's handlers in the same state.

* Modelled: Sys.v (steps, `world` of handler cells).
* Proof: every URB is served without handlers or by one handler of the held device (`handle_urb_shape`); simulation between the concurrent execution and the lone one (`alone_run`).
* Theorems: `C66_only_the_holder`, `C66_as_if_alone`
* Result: First theorem for one step, second for whole executions (the handlers of the device are private to it).

### C67 — Only direction, endpoint, buffer length, setup and data of a URB matter (proved)

Two CMD_SUBMIT messages that agree on direction, endpoint, transfer_buffer_length, setup packet and data have the same effect on the server and its handlers, and their replies are the same from byte 20 on; seqnum, devid, transfer_flags, start_frame, number_of_packets, interval and iso descriptors change nothing but the echoed header.

* Modelled: `serve_submit`, `response_to_bytes`, the connection loop.
* Proof: congruence of `serve_submit` and of the encoder, lifted to the connection.
* Theorems: `C67_irrelevant_fields`
* Result: Both messages abort the connection in the same way, or both are answered.

### C68 — A URB for another device id is refused (partial)

A CMD_SUBMIT whose devid is not that of the device imported on the connection is not executed.

* Modelled: same.
* Proof: witness; locality lemma of C66.
* Theorems: `C68_devid_checked_refuted`, `C68_devid_checked_partial`
* Result: Refuted: devid is ignored. Partial: on the wire, whatever the devid, only handlers of the imported device are reached and the server is unchanged.

### C69 — Isochronous replies describe their packets (partial)

The reply to an isochronous URB carries the request's number_of_packets and one 16-byte descriptor per packet.

* Modelled: same.
* Proof: witness with an isochronous endpoint; layout of every reply.
* Theorems: `C69_iso_packets_refuted`, `C69_iso_packets_partial`
* Result: Refuted: packets are never echoed. Partial: exact condition on the packet count (right exactly for 0).

### C70 — Device list and import reply describe a device by the same record (proved)

The 312-byte device record in the reply to an import is byte for byte the record of that device in a device list requested before.

* Modelled: `op_rep_devlist`, `op_rep_import_success`, `import_device`.
* Proof: offset of the record computed from the sizes of the preceding entries.
* Theorems: `C70_list_and_import_agree`
* Result: On the wire, with any input afterwards.

### C71 — A host can enumerate every device within the descriptor limits (proved)

After importing an available device whose descriptors are within the limits of USB, a host may ask for the device, configuration, string and qualifier descriptors with any lengths and set the configuration, in any order and any number of times: each request gets its own successful reply with (a prefix of) the descriptor that decodes to the device, no handler is touched, and the session continues.

* Modelled: `import_device`, `handle_urb`, `get_descriptor`, the connection loop.
* Proof: composition of C07 and C39-C41 by induction over the request sequence.
* Theorems: `C71_enumeration`
* Result: Any number and order of enumeration requests.

### C72 — Interleaving between awaits changes nothing (proved)

On a multi-threaded runtime other tasks run between any two accesses of a task to shared data. If every lock request, every dropped guard, every look into or update of the device collections and every handler call is a step of its own, exactly the same sequences of inputs, answers, handler states and API results are possible as when tasks run undisturbed from await to await; and left alone the threads come to rest at awaits after finitely many steps.

* Modelled: Fine.v: the tasks of Sys.v with one shared access per step.
* Proof: simulation `sim`: the coarser model takes its step at the last access; the other tasks cannot see the difference because of the locks held (`hidden_writer`); guards dropped one by one only delay others (`lr_grant`). Conversely each coarse step is expanded (`expand_step`).
* Theorems: `C72_no_new_behaviour`, `C72_no_lost_behaviour`, `C72_progress`
* Result: Both inclusions, and progress.

### C73 — Device collections are only touched under their locks (proved)

A step of a task without a guard of a lock neither depends on nor changes the collection the lock protects; a collection only changes while the task that changes it is the only holder of the lock.

* Modelled: Fine.v.
* Proof: each step commutes with replacing a collection; ownership from the simulation and the exclusion invariant `excls`.
* Theorems: `C73_guarded`, `C73_writers`
* Result: Reads by independence of the contents, writes by exclusive ownership.

### C74 — Nobody starves under a fair scheduler (proved)

Take any infinite execution of the server in which the scheduler is fair (a task that can go on, or a lock that can be granted, is not passed over for ever), every reply is eventually read or its connection fails, and no call of remove_device misses its device. Then every command received is eventually served and answered, every closed connection ends, every add_device and remove_device call takes effect, however many other clients keep the server busy. If a remove_device call misses its device, or if a client does not read, this fails even with a fair scheduler.

* Modelled: Sys.v; infinite executions and fairness in SpecFair.v.
* Proof: leads-to reasoning: every holder leaves (available list first, then in-use table), so by induction on the position in the FIFO queue and on the number of holders every waiter is granted its lock (`queue_served`). Witnesses: infinite extensions of the C34 and C36 schedules.
* Theorems: `C74_no_starvation`, `C74_replies`, `C74_failed_remove_starves`, `C74_slow_client_starves`
* Result: The last two theorems show that neither condition can be dropped.

### C75 — A host sees what was built (proved)

A device made by UsbDevice::new and any sequence of with_interface and name setters, with arguments within the limits of USB, is enumerable, and a host reading its descriptors learns exactly the arguments: the interfaces in order with their codes, endpoints and class-specific bytes, and every name, default or given, changed or removed, through the string index found in the descriptors. If the endpoint addresses differ, each leads to the handler it was declared with.

* Modelled: `new_device`, `with_interface`, the eight setters, `handle_urb`, `get_descriptor`, `find_ep`.
* Proof: the pool invariant of C44 plus two more: everything but names and interfaces stays as `new` left it, and the interfaces are those asked for; then C39-C41.
* Theorems: `C75_host_sees_what_was_built`, `C75_endpoints_reach_handlers`
* Result: Fields assigned directly (they are public) are covered by C39-C41. Instances: the two example programs of the repository.

### C76 — The remaining descriptor types (proved)

GET_DESCRIPTOR for the device qualifier returns the 10-byte qualifier repeating the device's USB version, class triple and endpoint-0 packet size; for BOS it returns a BOS descriptor announcing no capabilities; for every descriptor type other than device, configuration, string, qualifier and BOS it returns success with no bytes. Each reply is cut to wLength and changes nothing.

* Modelled: `get_descriptor`, `qualifier_descriptor`, `bos_descriptor`, `desc_type_of`.
* Proof: byte layout of the replies through the whole connection loop; exhaustive case analysis of the type.
* Theorems: `C76_other_descriptors`
* Result: On the wire, for debug and release builds. USB 2.0 asks for a request error for unknown types; the code answers with success.

### C77 — Dropping a future harms nobody else (proved)

The application may drop the future of handler, add_device or remove_device at any await (timeout, select!, abort, shutdown). Whatever is dropped when: no two connections hold one device, no device is lost or duplicated, a connection reaches only the handlers of the device it holds, the dropped call keeps no lock and no place in a queue, nobody else gains or loses one, devices and handlers stay as they were, and the dropped call has taken effect as a whole or not at all.

* Modelled: `drop_future` (Cancel.v): all guards and queue places of a task are withdrawn, no code runs.
* Proof: the invariants of Sys are preserved by cancellation; one-step reduction to the sequential functions.
* Theorems: `C77_safe`, `C77_submits_use_held_device`, `C77_others_unaffected`, `C77_no_locks`, `C77_all_or_nothing`, `C77_executions`
* Result: Cancel.v adds cancellation at every await to the concurrent model; exclusivity, conservation and atomicity re-proved with it.

### C78 — A dropped connection gives its device back (partial)

When the application drops the future of a connection that has imported a device, the device becomes available again.

* Modelled: `drop_future`, the in-use table.
* Proof: witness; invariant: an orphaned device stays in the table.
* Theorems: `C78_cancel_leaks`, `C78_cancel_returns_device_refuted`, `C78_only_held_device_lost_partial`
* Result: Refuted: handler has no drop guard, so the device stays in the in-use table for ever (C78_cancel_leaks, for all later executions). Partial: nothing but the held device is lost.

### C79 — Timeouts on replies and on remove_device are enough (proved)

If the application drops replies that cannot be written and remove_device calls that wait for the in-use table, then from every reachable state everybody gets through without any client doing anything: nobody waits for a lock any more, every add_device call returns, and every closed connection ends by itself.

* Modelled: `drop_future`, the two locks.
* Proof: well-founded descent: work left plus number of live tasks; in a stuck state some overdue task exists.
* Theorems: `C79_timeouts_suffice`
* Result: Includes the deadlock of C34: dropping the remove_device call resolves it.

### C80 — A slow handler holds up only its own client (partial)

While handle_urb of one device's handler takes its time, the other connections are served and the application can add and remove devices.

* Modelled: a handler call that lasts is the step `LRun` of a granted CMD_SUBMIT not happening yet (SpecSlow.v).
* Proof: as C36: the guard keeps a queued writer waiting and the writer everybody behind it; induction over the schedule.
* Theorems: `C80_stall`, `C80_slow_handler_refuted`, `C80_others_served_partial`, `C80_application_partial`
* Result: Refuted: the read guard of the in-use table is held during the call; one import or release waiting for it blocks every other client, for as long as the call lasts (C80_stall). Partial: without imports and releases, the others are served; add_device and remove_device work unless a client does not read or a remove_device call found nothing.

### C81 — Replies to OUT transfers report how much was written (partial)

The reply to an OUT transfer that a handler has taken reports in actual_length the number of bytes taken, in the 48 bytes of a reply without payload.

* Modelled: the loop of `handler`, `usbip_ret_submit_success`, `response_to_bytes`.
* Proof: `submit_head` gives the shape of the reply; the length field against the length of the reply.
* Theorems: `C81_out_length_refuted`, `C81_out_length_partial`
* Result: Refuted for every handler and every non-empty OUT payload. Partial: the field is the number of bytes the handler returned, which follow as payload; always zero in a debug build.

### C82 — The server keeps accepting clients (proved)

Once its listener is bound, `server` accepts for ever: whatever its connections do, whichever of them fail or panic and however often accept fails, the next client is accepted and served by a task of its own that starts without a device. Only clients that were accepted are served. A server that could not bind serves nobody; one whose future was dropped accepts nobody new and serves the clients it has as before.

* Modelled: `server` (lib.rs:526-549) on top of Sys.v: bind, accept, accept errors, dropping the future (Accept.v).
* Proof: every step of the listener is a step of Sys.v or none; induction over runs.
* Theorems: `C82_keeps_accepting`, `C82_only_accepted`, `C82_listener_invisible`
* Result: Over runs of the listener together with the concurrent server; the queue of pending connections of the operating system is not modelled.

### C83 — Host devices are presented with their real speed (partial)

The speed field of the reply to an import of a shared host device is the USB/IP code (Linux usb_device_speed) of the speed that the host library reports for it.

* Modelled: `with_rusb_device_handles`, `with_nusb_devices` (`speed`), `to_bytes`; the library enumerations with their numbers (HostEnum.v); the codes of USB/IP in SpecHost.v.
* Proof: the speed field of the import reply (C07) against the code; witness for the refutation, all devices for nusb.
* Theorems: `C83_speed_partial`, `C83_nusb_speed_refuted`, `C83_speed_refuted`
* Result: Refuted: with rusb SuperSpeed devices are presented as wireless (4) and SuperSpeed+ as SuperSpeed; with nusb every speed is wrong. Partial: with rusb the field is right exactly for unknown, low, full and high speed. The numbering of rusb::Speed and nusb::Speed is taken from the documentation of the libraries.

### C84 — Left alone, the server answers everything (proved)

When nothing more comes from outside (no bytes, no connections, no API calls) and clients take the replies, the server comes to rest after finitely many steps, whatever the schedule. Unless a remove_device call waits for the in-use table (C34), at rest every API call has returned and every connection that has not ended has sent complete replies to all complete messages it got, in order, and nothing else; what it has not answered is not a complete message, and its client has not closed the stream.

* Modelled: Net.v: sockets, polls of `read_from_socket`, partial writes, on top of Sys.v.
* Proof: lexicographic measure: bytes not read, stage of each connection, work left in Sys.v, bytes not written and polls without input; every internal step decreases it (`internal_less`). At rest: C35 for the locks, the dialogue invariant of C64 for the streams.
* Theorems: `C84_terminates`, `C84_rest_is_reached`, `C84_rest_means_answered`
* Result: Termination holds from every state, reachable or not. At rest with a remove_device call waiting for the in-use table everything may be stuck (C34); that case is excluded in the statement.

### C85 — The example keyboard types one key per round of its loop (proved)

What polls of the interrupt endpoint of the example keyboard program have returned, over all connections, is the beginning of: press 1, release, press 1, release, ... with one press for each round of the main loop; the next poll returns the next action, or nothing when all has been shown.

* Modelled: examples/hid_keyboard.rs as a whole (Prog.v): device construction, the server with its listener (Accept.v), the main loop and its `lock().unwrap()`.
* Proof: invariant over runs: the only devices are the one built (`quiet`), `kb_todo` of the handler is what remains of the script; `kb_serve` says what a URB does to the handler.
* Theorems: `C85_keyboard_types`
* Result: For runs of the process in which it still runs; what ends it is C87. The main loop may come round at any moment (time is not modelled).

### C86 — The example serial port sends one byte per round of its loop (partial)

The bytes that polls of the bulk IN endpoint of the example serial program have returned, over all connections, are the bytes produced by the main loop, each once, in order; a poll returns all that is left.

* Modelled: examples/cdc_acm_serial.rs as a whole (Prog.v).
* Proof: invariant over runs: bytes handed out plus transmit buffer = bytes pushed (`cdc_step`); a concrete run with GET_LINE_CODING for the refutation.
* Theorems: `C86_serial_sends_refuted`, `C86_serial_sends_partial`
* Result: Refuted: a control request of the host to the interface (GET_LINE_CODING, a standard request of the class) is answered with the waiting bytes, which are lost to the polls. Partial: polls of endpoint 2 and control IN requests to an interface together return every byte once, in order.

### C87 — A client cannot stop the example programs (partial)

Whatever clients send, the main task of the example programs does not panic, so the process goes on.

* Modelled: both example programs; a panic of the main task ends the process.
* Proof: serial: the handler is never poisoned (`cdc_run`); keyboard: the flag is set exactly by the requests listed (`ki_poison`); concrete run for the refutation.
* Theorems: `C87_serial_goes_on`, `C87_keyboard_goes_on_refuted`, `C87_keyboard_goes_on_partial`, `C87_programs_start`
* Result: Proved for the serial program. Refuted for the keyboard program: GET_DESCRIPTOR for the HID descriptor poisons the handler mutex and the unwrap in main ends the process. Partial: exactly the control requests to interface 0 that the keyboard does not know do that.

### C88 — A debug build differs from a release build only by stopping (proved)

On the same input, and under the same schedule, a debug build and a release build do the same thing, byte for byte and event for event, until an arithmetic overflow or a debug_assert! stops the debug build; what it has sent by then is what the release build has sent by then. The release build never stops for those two reasons.

* Modelled: every function of the model that takes the build profile `dbg`.
* Proof: relation `or_stops` between the two builds, shown to be preserved by every reader, encoder, constructor and by `serve`; lifted to runs of Sys.v by induction and to Net.v by a simulation in which the two socket readers stay related (`rd_le`), both directions.
* Theorems: `C88_one_connection`, `C88_release_has_no_checks`, `C88_debug_behaviour_is_release_behaviour`, `C88_release_behaviour_is_debug_behaviour`, `C88_whole_commands`, `C88_building`, `C88_codecs`
* Result: The two checks are the ones the model distinguishes: debug_assert! and arithmetic overflow. Other panics (slice bounds, unwrap, poisoned locks) are the same in both builds.

### C89 — The numeric codes are those of the standards (proved)

Each member of the enumerations of class codes, descriptor types, HID descriptor types, transfer types and speeds has the number that the USB-IF tables (for speeds: Linux) give it; numbers from the wire are recognised as a standard request, descriptor type or transfer type exactly when the tables contain them, and as the one of that name; the protocol numbers are those of the kernel.

* Modelled: the enumerations of consts.rs and hid.rs, their casts and `FromPrimitive`; the protocol constants.
* Proof: tables written independently in SpecCodes.v; case analysis over members, and over the bits of an arbitrary number.
* Theorems: `C89_codes_of_the_standards`, `C89_decoding`, `C89_protocol_numbers`
* Result: The tables in SpecCodes.v were written from the standards as known to the author; no standard text is part of the repository.

### C90 — Handler calls that block do not stop the server (partial)

While handler calls of some clients take long, other clients are still accepted and served, on a runtime with any number of worker threads.

* Modelled: `server` and the `handler` tasks on W worker threads (Workers.v on top of Accept.v).
* Proof: projection to Accept.v; a schedule built by induction over the devices and the clients; invariant that nothing but the application moves.
* Theorems: `C90_all_threads_busy`, `C90_blocking_handlers_refuted`, `C90_free_thread_partial`, `C90_threads_add_nothing`, `C90_calls_in_progress`, `C90_call_returns`, `C90_application`
* Result: Refuted for every number W of threads and every server with at least W importable devices: W long calls stop everything but the application. Partial: with fewer than W calls in progress the other tasks and the listener are not affected by threads (C80 says what the locks do); threads add no behaviour; the busy threads are exactly the calls entered and not returned, at most W; the application needs none of them.

### C91 — A HID host sees what is typed (proved)

A host that follows the HID specification learns from the report descriptor that the device is a keyboard, and decoding with it the reports of the interrupt endpoint it sees, for every text of supported characters, exactly the keys of the text go down and up one after the other, each alone; every other report that can be queued shows the modifiers of its bits and the keys of its codes.

* Modelled: Hid.v (`keyboard_report_descriptor`, `from_ascii`, `kb_handle_urb`); SpecReport.v is a HID host: items, global and local state, collections, input fields, bits of a report
* Proof: parse the descriptor by computation; bytes and bits of a report by lemmas over all 256 byte values; then C51 and C53 give the sequence of reports
* Theorems: `C91_keyboard_usage`, `C91_host_reads_reports`, `C91_typing`, `C91_typing_on_the_wire`
* Result: HID host written from HID 1.11: report descriptor parser, field decoding, short reports zero-extended. Any text, any interleaving, also with the descriptor the client itself read over the wire. Scope: the reports the library makes; the 6-byte release report (C52) is read as no key down.

### C92 — Class drivers recognise the devices of the example programs (proved)

The configuration that a host reads from the keyboard program shows one HID interface whose HID descriptor announces the report descriptor with its real length and whose interrupt IN endpoint holds a whole report; that of the serial program shows one CDC ACM interface with a header and an ACM functional descriptor and exactly one interrupt IN, one bulk IN and one bulk OUT endpoint.

* Modelled: Prog.v (`hid_keyboard`, `cdc_acm_serial`), Device.v, Urb.v; SpecReport.v `hid_function`, `acm_function`
* Proof: C75 for the builder calls of the programs; the decoded interface is then compared with the class requirements
* Theorems: `C92_keyboard_is_hid`, `C92_serial_is_acm`
* Result: The interface of each example program as its host decodes it from the configuration descriptor, checked against what the HID and CDC ACM class drivers look for.

### C93 — A Linux client stays in step with the server (proved)

The USB/IP client of Linux, which attaches and then sends URBs and unlink requests without waiting for replies, understands everything it reads, however the bytes are cut: it attaches or is refused as the import reply says, every reply completes the oldest of its requests that is still open, with the status and data of that reply, and once both sides are idle nothing is left open and nothing unread; the server, left alone after the client's last byte has arrived, comes to that point whatever it does first, or has ended the connection (remove_device calls apart, C34). Proviso: no reply to an IN URB is longer than its buffer and no reply to an OUT URB carries data; this holds for URBs as the kernel makes them if handlers keep to the lengths, and without it the client drops the connection.

* Modelled: Net.v, Sys.v, Conn.v and everything below; SpecLinux.v `linux_session`, `in_step`; SpecServed.v `carries`
* Proof: WireProofs.v: what a connection has sent is what it was served, event by event; LinuxProofs.v: the driver reads one reply exactly, induction over the replies that have arrived, invariant over the session; PropsLinuxRest.v: internal steps continue the session without new bytes, C84 says where connections are at rest
* Theorems: `C93_in_step`, `C93_kernel_urbs`, `C93_all_given_back`, `C93_overlong_reply_breaks`, `C93_given_back_in_the_end`
* Result: SpecLinux.v is the client, written from vhci_rx.c, vhci_tx.c, usbip_common.c and usbip_attach.c of Linux as known to the author. C93_in_step without assumptions about handlers, C93_kernel_urbs with them; C93_overlong_reply_breaks is a real session of the serial handler in which the client gives up.

### C94 — A Linux client attached to an example program gets what the program put in (proved)

A Linux client that imports the keyboard program's device and uses it alone stays in step with it; its requests for the report descriptor return that descriptor, and the reports it is handed, decoded with it, show the keys of the typed text going down and up in order, with nothing lost, repeated or invented; once both sides are idle and the keyboard is empty it has seen the whole text. A client of the serial program gets the bytes put in, in order, split as it reads them, and once idle all of them. Proviso: URBs as the HID and ACM drivers make them, with buffers that hold a report, the report descriptor, or what is queued.

* Modelled: Net.v, Sys.v, Hid.v, Cdc.v, Prog.v (`g_device`, handlers, worlds); SpecAttached.v `program_session`, `handed_back`
* Proof: AttachedProofs.v: invariants of the handler over the session (what was put in = what was handed out + what is left; every reply fits its buffer), then C93: what the client was told is what the server handed out; C91 decodes it
* Theorems: `C94_keyboard`, `C94_serial`
* Result: The client is that of C93, the host that of C91, the programs those of Prog.v with any reports and byte strings instead of their constant ones. Scope: nobody else uses the device meanwhile (another client would take part of the input); C93_overlong_reply_breaks shows why buffers must hold what is queued.

### C95 — Builder calls change only what they name (proved)

After any sequence of builder calls on any device, the fields that are neither names nor interfaces nor the device handler are as before; the interfaces are the old ones followed by those asked for, in order, each as asked; the device handler is the last one given; and the names and interfaces are those of the same sequence without the calls that give a device handler.

* Modelled: Device.v (`with_interface`, `with_device_handler`, the name setters, `new_string`, `remove_string`); SpecBuild.v `own_fields`, `build_run`
* Proof: induction over the calls; the device handler commutes with every other call
* Theorems: `C95_builder_calls`
* Result: Any device, any calls in any order. Found by a surviving mutant of with_device_handler.

### C96 — The devices of the host do what their clients ask, and nothing else (proved)

In the program that shares the devices of its host, the transfers made on each device are exactly those that the URBs of the connections that had imported it ask for, one each and in the order of service: kind and direction of the endpoint, the client's parameters and payload. Nothing else touches a device, and only one connection at a time can. The client is told what the host answered: the bytes read, or nothing for a write or a failed transfer. Proviso: libusb respects buffer lengths; no two devices of the host share bus and address.

* Modelled: HostProg.v (`host_main`, `host_step`), HostEnum.v, HostHandlers.v, Urb.v, Sys.v, Accept.v; SpecHostProg.v `wants`, `asked`
* Proof: one URB by cases (`serve_host`), induction over runs with the device invariant of C24/C25; distinct bus ids from C60, separate handlers from C61
* Theorems: `C96_transfers`, `C96_own_device`
* Result: Whole executions of examples/host.rs. URBs that no handler is there for (see C57) and isochronous ones ask for nothing.

### C97 — Interface requests reach the host's interface they are meant for (partial)

A control request that a client addresses to an interface it found in the configuration of a shared host device reaches the interface of the real device that has that class and those endpoints.

* Modelled: HostEnum.v (`ha_number` is the number the host reports), HostHandlers.v, Urb.v; SpecConform.v `interface_request`, `meant_for`
* Proof: C61 relates the interfaces to the host's, C50-style routing, C57/C59 give the transfer; witness device for the refutation
* Theorems: `C97_interface_numbers_partial`, `C97_nusb_interface_numbers_partial`, `C97_interface_numbers_refuted`
* Result: False: the numbers of the host device are dropped and interfaces are renumbered by position, while wIndex is passed on unchanged; witness: a device that lists its interfaces in the order 0, 2, 1. Partial: the request reaches the interface meant exactly when the device numbers its interfaces by position (rusb and nusb).

### C98 — Different devices have different device ids (partial)

The device ids that clients compute from the bus and device numbers of the import reply differ for different devices of one server.

* Modelled: HostEnum.v, Device.v `new_device`; `right_devid` of SpecSession.v
* Proof: C61 for the numbers, arithmetic; two devices of one bus as witness
* Theorems: `C98_distinct_device_ids_refuted`, `C98_distinct_device_ids_partial`
* Result: False: the device number is the port number (rusb) or 0 (nusb). Partial: exactly which devices of a host share an id; devices of UsbDevice::new share one only if made with the same number.

### C99 — Failed submits carry an error number (partial)

The status of a reply to a submit is 0 if the submit succeeded, and otherwise a negative error number, as the Linux client expects; it is not 0 exactly when the endpoint is unknown, the string is unknown, or the handler returned an error.

* Modelled: Conn.v `serve`, Urb.v; SpecConform.v `failing`
* Proof: case analysis of `handle_urb`, both directions
* Theorems: `C99_error_numbers_refuted`, `C99_error_numbers_partial`
* Result: False: the status of a failed submit is 1. Partial: 1 exactly for the three kinds of failure, 0 otherwise, unless the connection aborts.

### C100 — Only configurations that exist can be read or selected (partial)

GET_DESCRIPTOR of a configuration is answered for the indices below the number of configurations, each with its own descriptor, and refused for others; SET_CONFIGURATION is accepted for the value of such a configuration and refused for others.

* Modelled: Urb.v `get_descriptor`, `handle_urb`
* Proof: the arms for configuration descriptors and SET_CONFIGURATION, on the wire
* Theorems: `C100_configurations_refuted`, `C100_configurations_partial`
* Result: False: any index and any value is accepted. Partial: all indices get the same descriptor, all values the same empty success, and nothing changes (so nothing reaches a host device either).

### C101 — Every client finds a device as it was when it was made (partial)

What a client gets from a device does not depend on what earlier clients of the device did.

* Modelled: Sys.v runs; Conn.v `handler` for the witness
* Proof: induction over the run with C66_only_the_holder; two sessions of the bundled keyboard computed
* Theorems: `C101_fresh_start_refuted`, `C101_fresh_start_partial`
* Result: False: the state of handlers survives the client (witness: a half-shown key). Partial: nothing but submits of its holder and the application changes a handler, so the next client finds what the last one left.

### C102 — The drivers of Linux work with the devices of the example programs (proved)

While the clients of hid_keyboard (cdc_acm_serial) send only what the USB core asks during enumeration and what the driver usbhid (cdc_acm) asks of such a device, the program goes on, every URB of the client that has the device is answered with status 0 and the data asked for, and no connection is ended by a panic, except one that submits without having imported the device.

* Modelled: Prog.v runs; SpecDriver.v lists the requests of the USB core (`enum_request`), usbhid and cdc_acm and the answers they expect
* Proof: invariant over runs of the program: the devices (DevProofs), no poison, every reply can be written (response_total); enumeration at the level of `serve_submit`
* Theorems: `C102_keyboard_and_usbhid`, `C102_serial_and_cdc_acm`
* Result: What the drivers ask is a list in SpecDriver.v, taken from the Linux drivers by hand; the theorem covers all orders and numbers of these requests.

### C103 — A device whose client has vanished becomes available again (partial)

If the client that has imported a device disappears, its machine or its network being gone, then some time later the device is available again: other clients can import it and the application can remove it.

* Modelled: Sys.v: the read of a connection ends only by what the network reports (`LRecv`, `LReadErr`), there is no timer in the code
* Proof: induction over the continuation with the device invariant of C24/C25: a waiting connection keeps its device; the witness is a run of two devices; for a reported loss C26
* Theorems: `C103_kept_while_silent`, `C103_vanished_refuted`, `C103_reported_partial`
* Result: False: the code has no time-out and sets no keep-alive, so a silent client keeps its device for ever. Partial: as soon as the network reports the loss the device is released (same provisos as C26).

### C104 — A device picked from the device list can be attached (proved)

Let a client take the reply to its device-list request, pick an entry and send the bus id of that entry, on this or another connection, at any later time. Then it gets a successful import reply whose record equals the entry picked, and holds the device that the entry describes, unless since the list somebody imported a device with this bus id or the application removed it. (For devices with distinct bus ids, at most 255 interfaces, and paths and bus ids that fit their wire fields and contain no NUL.)

* Modelled: Sys.v runs with the list and the import at arbitrary points; the client side is a parser of both replies (`p_devlist` of C08, `p_import`), independent of the encoder
* Proof: induction over the run between the two requests: a device stays available until an import or a removal takes it (`stay_run`); the rest from C25 (distinct devices), C08 (the list decodes) and the lookup lemmas of DevProofs.v
* Theorems: `C104_list_then_attach`
* Result: 

### C105 — The client of a shared host device reads the descriptors of the device (partial)

When a device of the host is shared, GET_DESCRIPTOR for the device and for the configuration is answered with the device's own descriptors, cut to wLength: the same bytes that the host reads from it.

* Modelled: SpecReal.v: the byte layout of a device and a configuration after USB 2.0 9.6, and what rusb and nusb show of it (trusted, after their documentation); the enumeration (HostEnum.v) and the descriptors of the library (Urb.v)
* Proof: the reply is computed as the layout of a changed device (`rusb_seen`, `rusb_seen_config`, `nusb_seen`, `nusb_seen_config`); equality with the device itself is decided by comparing lengths first (whatever is dropped makes it shorter) and then byte by byte
* Theorems: `C105_rusb_partial`, `C105_nusb_partial`, `C105_same_partial`, `C105_descriptors_refuted`
* Result: False: witness a camera, whose streaming endpoint is lost with the alternate setting. Partial: exactly which bytes are sent instead, for every device, and they are the bytes of the device exactly when versions are x.0 with one digit, names are numbered 1, 2, 3, the configuration is bus-powered with 100 mA and without name, every interface has one setting and the number of its position, and there are no descriptors but those of interfaces, classes and endpoints; with nusb also no class descriptors, USB version 0 and packets of 16.

### C106 — A device that has nothing to send does not answer polls (partial)

A poll of an interrupt or bulk IN endpoint is answered only when there is something to send, as a USB device answers NAK and the request stays pending: no poll of the keyboard or the serial port in the example programs is answered with an empty buffer.

* Modelled: the example programs (Prog.v, Handlers.v) with all their clients; `handed_out` collects the answers to polls
* Proof: from C85 and C86: the answers that bring something are a prefix of what the rounds of the program produced, so their number is bounded by the rounds, and with nothing left the next answer is empty
* Theorems: `C106_idle_polls_refuted`, `C106_idle_polls_partial`
* Result: False: the first poll of an idle keyboard or serial port is answered at once with an empty buffer. Partial: at most two answers per round of the keyboard (one per round of the serial port) bring something, and once all is fetched every further poll is answered at once with nothing.

### C107 — A short read is an error for a client that says so (partial)

If a submit for an IN endpoint carries the flag URB_SHORT_NOT_OK (bit 0 of transfer_flags) and the device sends less than transfer_buffer_length, the status of the reply is not 0.

* Modelled: Protocol.v and Conn.v: the flags are read from the wire and kept in the command
* Proof: from the serving of submits that agree on all the server looks at (C67), here with the same header, so that the whole reply is the same
* Theorems: `C107_short_reads_refuted`, `C107_short_reads_partial`
* Result: False: a read of 8 bytes with the flag that brings 3 is answered with status 0. Partial: exactly what happens instead, submits that differ only in the flags are answered with the same bytes and leave the same state.

### C108 — Devices shared through nusb go on working, whatever clients do (partial)

Nothing that clients send makes a handler of a device shared through nusb unusable: later requests to it are made as if the earlier client had not been there, the transfers that each handler makes are exactly those that clients ask for, once each and in order, and every client is told what the host answered.

* Modelled: the nusb handlers (Host.v, not those of Windows), the server and all its connections (Sys.v); the host is an arbitrary answer to each transfer, given the earlier ones
* Proof: by induction over runs, with `nusb_asked` (SpecNusb.v) determined by the served commands; the case analysis of one URB is `serve_nusb` (NusbProofs.v)
* Theorems: `C108_goes_on_refuted`, `C108_transfers_partial`, `C108_goes_on_partial`, `C108_lost_partial`, `C108_served_partial`
* Result: The claim is false: the handlers abort with todo!() on bulk and interrupt endpoints and with unimplemented!() on types and recipients without a name in nusb, which poisons their mutex; and the connection that aborts keeps the device. Proved instead: exactly which requests do this, that every other request is made and answered, once and in order, on handlers that still work, and that all handlers work as long as nobody sends such a request. C108_lost_partial: the device is then lost for all clients. C108_served_partial: for devices made by with_nusb_devices no other client suffers: whatever nusb can do for the device a client holds is done and answered.

### C109 — Descriptors do not change while a device is shared (proved)

Two GET_DESCRIPTOR requests with the same setup packet, endpoint and direction, from whichever clients that have imported the device and at whatever times, are answered with the same status, length and data, or both end their connection the same way, unless the application removes the device in between. The answer depends on nothing but the device and the question: not on the state of its handlers, other devices, other clients, or anything sent before.

* Modelled: the whole server with all its connections (Sys.v), UsbDevice::handle_urb (Device.v), the replies (Protocol.v)
* Proof: the serving of such a request is computed from the device and the setup packet alone (`asks_serve`); the device held under a bus id is the same as long as it is not removed, by the invariants of C24 and C25
* Theorems: `C109_descriptors`, `C109_stable`
* Result: The requests compared need not have the same number, device id, flags, buffer length or data.

## 5. Defects of the code established by the proofs

* Importing while holding a device, a write error and any panic leave the device in the in-use table for ever (C27).
  A failed import makes the connection forget its device (C28).
* `remove_device` takes `available` before `used`, everybody else the other way round: deadlock (C34, C26).
* A client that does not read its reply blocks the server once somebody wants to import or release (C36).
* Two devices with one bus id overwrite each other in the in-use table; the second disconnect reaches `unreachable!()`.
  All devices made by `UsbDevice::new` share the id `0-0-0` (C32).
* A 48-byte message reserves up to 4 GiB (payload) or 64 GiB (iso descriptors) before any of it arrives (C12).
* SET_CONFIGURATION with wLength >= 1 answers an OUT transfer with payload (C19).
* CDC bulk IN ignores the buffer length (C20) and a control IN request drains the serial buffer (C56, C86).
* The devid of a URB is ignored (C68). Isochronous packet descriptors are not echoed, so no isochronous transfer
  can be answered correctly (C69).
* Handler calls run on the worker threads: as many slow calls as threads stop the whole server (C90).
* Endpoint numbers are truncated to eight bits (C23).
* String descriptors of 127 or more UTF-16 units have a wrong length or panic (C42).
* Descriptors of 64 KiB or more escape truncation (C43).
* The interface count wraps at 256 (C09).
* `new_string` never reports exhaustion: index 0, then an endless loop; overflow panic in debug builds (C45).
* `Version` is reported byte-wise, not in BCD (C46).
* `verify_descriptor` loops for ever on a zero length byte (C47).
* Standard requests such as GET_STATUS, and all requests to an endpoint, abort the connection (C49, C57, C59).
* Keyboard: the release report is 6 bytes long, 8 are announced (C52); one request poisons the handler for good (C54)
  and ends the example program (C87).
* Host devices: failed transfers are reported as successful (C58); nusb bulk and interrupt URBs abort (C59);
  one unreadable string aborts the enumeration; interface string indices are not in the string table (C61);
  the speed told is wrong for SuperSpeed devices with rusb and for all devices with nusb (C83); on Windows nusb device
  requests are answered without being performed (C59).
* Host devices are shared without their alternate settings, interface numbers, power needs and endpoint extras; with
  nusb also without class descriptors (C97, C105). Device numbers of host devices collide (C98).
* The status of a failed submit is 1, which is no error number (C99). Any configuration index and value is accepted (C100).
* Handlers keep their state from one client to the next (C101). A client that vanishes silently keeps its device for
  ever (C103).

## 6. Mutation testing

`seeded/LOG.jsonl` lists every edit tried on a scratch copy of the model, the claim it breaks, the lemmas and theorems
that no longer prove, and the theorems that were tightened because of it.
