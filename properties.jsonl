{"id": "C01", "title": "Command encode/decode round trip", "statement": "Encoding any well-formed command with UsbIpCommand::to_bytes and reading it back with UsbIpCommand::read_from_socket yields the same command and leaves every byte that follows it in the stream unread.", "quantifier": "every well-formed UsbIpCommand (any field values, any payload and iso-descriptor length) and every byte string following it", "why_tests_cant": "The test-suite round-trips five literal commands; payload length, packet count, direction and the bytes that follow are unbounded.", "anchors": ["src/usbip_protocol.rs:UsbIpCommand::to_bytes", "src/usbip_protocol.rs:UsbIpCommand::read_from_socket"]}
{"id": "C02", "title": "The reader accepts only what the wire layout says, and consumes exactly that", "statement": "Whenever read_from_socket returns a command, the bytes consumed are exactly one protocol message with the documented layout for that command (all fields at their documented big-endian offsets, payload length equal to transfer_buffer_length when the transfer is not IN, 16 bytes per iso packet), and the rest of the stream is untouched.", "quantifier": "every byte stream on which the reader succeeds", "why_tests_cant": "A test feeds chosen messages; a desynchronising off-by-one for some length/direction/packet-count combination needs all streams.", "anchors": ["src/usbip_protocol.rs:UsbIpCommand::read_from_socket", "src/usbip_protocol.rs:UsbIpHeaderBasic::read_from_socket_with_command"]}
{"id": "C03", "title": "A truncated command is never executed", "statement": "If the peer closes the stream strictly inside a command, the reader reports UnexpectedEof and no command is produced, at whichever byte the stream is cut.", "quantifier": "every well-formed command and every strict prefix of its encoding", "why_tests_cant": "Every cut point of every command length is a case; tests check none.", "anchors": ["src/usbip_protocol.rs:UsbIpCommand::read_from_socket"]}
{"id": "C04", "title": "Exactly which version/command words are rejected, and with which error", "statement": "A message whose version half-word is neither 0 nor 0x0111, or whose command half-word is not one of the four known codes, is rejected with an error of kind Other naming the offending value, before anything else is read; every other message is never rejected for that reason.", "quantifier": "all 2^32 first words and any continuation", "why_tests_cant": "Two literals are tested out of 2^32 first words.", "anchors": ["src/usbip_protocol.rs:UsbIpCommand::read_from_socket"]}
{"id": "C05", "title": "Independence from TCP segmentation", "statement": "How the network splits the byte stream into reads never changes which commands are read, where the next one starts or which error is reported.", "quantifier": "every byte stream and every way of cutting it into non-empty chunks", "why_tests_cant": "Segmentation is chosen by the network; the mock socket always delivers everything at once.", "anchors": ["src/usbip_protocol.rs:UsbIpCommand::read_from_socket"]}
{"id": "C06", "title": "Basic header round trip", "statement": "UsbIpHeaderBasic::from_bytes inverts to_bytes and to_bytes inverts from_bytes, with the five fields at big-endian offsets 0,4,8,12,16; in a debug build from_bytes panics exactly when direction is not 0 or 1.", "quantifier": "all headers and all 20-byte arrays", "why_tests_cant": "2^160 headers.", "anchors": ["src/usbip_protocol.rs:UsbIpHeaderBasic::from_bytes", "src/usbip_protocol.rs:UsbIpHeaderBasic::to_bytes"]}
{"id": "C07", "title": "RET_SUBMIT / RET_UNLINK / import replies are decodable by a client", "statement": "For every response, the bytes produced by UsbIpResponse::to_bytes have each field at its documented offset and their total length is the documented one (48+payload+iso, 48, 320 or 8), so a client that knows the request can delimit and decode them.", "quantifier": "every response value", "why_tests_cant": "Only single literals are serialised in tests.", "anchors": ["src/usbip_protocol.rs:UsbIpResponse::to_bytes"]}
{"id": "C08", "title": "Device list replies are decodable by a client", "statement": "A client following the documented OP_REP_DEVLIST layout recovers from the reply, in order, every available device's path, bus id, numbers, ids, bcd, class triple, configuration data and interface class triples, and consumes exactly the whole reply, provided each device has at most 255 interfaces and its path/bus id fit in 256/32 bytes.", "quantifier": "every list of devices satisfying the size limits", "why_tests_cant": "Number of devices, interfaces and string lengths are unbounded.", "anchors": ["src/usbip_protocol.rs:UsbIpResponse::to_bytes", "src/device.rs:UsbDevice::to_bytes_with_interfaces", "src/usbip_protocol.rs:UsbIpResponse::op_rep_devlist"]}
{"id": "C09", "title": "Device lists stay decodable without any limit on interfaces", "statement": "The device list remains decodable for every number of interfaces per device.", "quantifier": "every list of devices, including devices with 256 or more interfaces", "why_tests_cant": "Needs devices with hundreds of interfaces; boundary at 256.", "anchors": ["src/device.rs:UsbDevice::to_bytes", "src/device.rs:UsbDevice::to_bytes_with_interfaces"]}
{"id": "C10", "title": "SETUP packets are parsed little-endian", "statement": "SetupPacket::parse returns bmRequestType, bRequest and the three 16-bit words read little-endian from bytes 2-3, 4-5, 6-7, and every field fits its width.", "quantifier": "all 2^64 setup packets", "why_tests_cant": "2^64 inputs.", "anchors": ["src/setup.rs:SetupPacket::parse"]}
{"id": "C11", "title": "Pipelined commands are read back in order", "statement": "Concatenating the encodings of any sequence of well-formed commands and reading from that stream repeatedly yields exactly that sequence, then UnexpectedEof.", "quantifier": "every finite sequence of well-formed commands", "why_tests_cant": "Framing errors compound over sequences of unbounded length.", "anchors": ["src/usbip_protocol.rs:UsbIpCommand::read_from_socket", "src/lib.rs:handler"]}
{"id": "C12", "title": "Memory reserved for a command is bounded by what was received", "statement": "While reading a command the server never reserves a buffer larger than the bytes the peer has already sent plus a fixed constant.", "quantifier": "every byte stream", "why_tests_cant": "An adversarial length field is a single point in a 2^64 space.", "anchors": ["src/usbip_protocol.rs:UsbIpCommand::read_from_socket"]}
{"id": "C13", "title": "One reply per command, in order, echoing the request", "statement": "On every connection the bytes written are the concatenation, in request order, of exactly one reply per command fully processed; each submit/unlink reply carries the request's seqnum, devid, direction and ep unchanged and the matching reply code.", "quantifier": "every input byte stream, server state, handler behaviour and build mode", "why_tests_cant": "Needs all command sequences and all handler behaviours.", "anchors": ["src/lib.rs:handler"]}
{"id": "C14", "title": "UNLINK is always acknowledged after the unlinked URB completed", "statement": "A CMD_UNLINK is answered by a RET_UNLINK with status 0 and the unlink's own seqnum, changes no device or server state, needs no imported device, and any earlier submit on that connection has been answered before it.", "quantifier": "every unlink command in every connection history", "why_tests_cant": "History property.", "anchors": ["src/lib.rs:handler"]}
{"id": "C15", "title": "Submitting without an imported device ends only that connection", "statement": "A CMD_SUBMIT on a connection with no imported device produces no reply bytes, aborts that connection's task and leaves all devices and handler states unchanged.", "quantifier": "every submit command, every server state", "why_tests_cant": "All states.", "anchors": ["src/lib.rs:handler"]}
{"id": "C16", "title": "URBs to unknown endpoints are refused without side effects", "statement": "A submit whose endpoint (number with direction bit) is neither endpoint zero nor an endpoint of the imported device is answered with a RET_SUBMIT of status 1, actual_length 0 and no payload, and no handler is invoked.", "quantifier": "every device, every endpoint number and direction, every payload", "why_tests_cant": "All device topologies.", "anchors": ["src/lib.rs:handler", "src/device.rs:UsbDevice::find_ep"]}
{"id": "C17", "title": "Handler errors become failed RET_SUBMITs", "statement": "If the handler returns an error, the reply is a RET_SUBMIT with status 1, actual_length 0 and no payload, and the connection keeps serving the next command.", "quantifier": "every handler, every URB", "why_tests_cant": "All handlers.", "anchors": ["src/lib.rs:handler"]}
{"id": "C18", "title": "Handler data reaches the client unmodified", "statement": "If the handler returns data for an IN transfer, the reply is a RET_SUBMIT with status 0, actual_length equal to the number of bytes, followed by exactly these bytes.", "quantifier": "every handler, every URB, every returned byte string shorter than 2^32", "why_tests_cant": "All byte strings.", "anchors": ["src/lib.rs:handler", "src/usbip_protocol.rs:UsbIpResponse::usbip_ret_submit_success"]}
{"id": "C19", "title": "Replies to OUT transfers never carry a payload", "statement": "The reply to a submit with direction OUT is exactly 48 bytes, so the client (which reads no payload for OUT) stays in sync.", "quantifier": "every OUT submit on every device", "why_tests_cant": "Needs the cross product of setup packets and handlers.", "anchors": ["src/device.rs:UsbDevice::handle_urb", "src/lib.rs:handler"]}
{"id": "C20", "title": "Replies never exceed the buffer the client offered", "statement": "The actual_length of an IN reply never exceeds the transfer_buffer_length of the request (as the handler trait documentation demands).", "quantifier": "every IN submit on the built-in handlers and standard descriptor requests", "why_tests_cant": "All lengths and all queue contents.", "anchors": ["src/hid.rs:UsbHidKeyboardHandler", "src/cdc.rs:UsbCdcAcmHandler", "src/device.rs:UsbDevice::handle_urb"]}
{"id": "C21", "title": "How a connection ends", "statement": "handler returns Ok exactly when the stream ends with UnexpectedEof at a command read, returns that error for any other read error, returns the write error if a reply cannot be written completely, and otherwise only stops by panicking; it never stops while input commands keep succeeding.", "quantifier": "every input stream, every read-error kind, every point at which writing fails", "why_tests_cant": "All crash points of the socket.", "anchors": ["src/lib.rs:handler"]}
{"id": "C22", "title": "An URB reaches exactly the endpoint and handler it addresses", "statement": "A non-control submit invokes exactly the handler of the first interface that declares the addressed endpoint, once, with the request's own endpoint, length, setup packet and payload; no other handler's state changes.", "quantifier": "every device, every world of handlers", "why_tests_cant": "All topologies and handler states.", "anchors": ["src/device.rs:UsbDevice::find_ep", "src/device.rs:UsbDevice::handle_urb"]}
{"id": "C23", "title": "Endpoint numbers are not aliased", "statement": "Two submits with different endpoint numbers on the wire never address the same endpoint.", "quantifier": "all 32-bit endpoint fields", "why_tests_cant": "2^32 values.", "anchors": ["src/lib.rs:handler"]}
{"id": "C24", "title": "Exclusive import", "statement": "Provided no two devices on the server share a bus id, at every moment each device is held by at most one connection, and while a connection holds it no other connection can import it, whatever the interleaving of connections, add_device and remove_device calls.", "quantifier": "every schedule of any number of connections and API calls", "why_tests_cant": "Unbounded interleavings; the test tries one.", "anchors": ["src/lib.rs:handler", "src/lib.rs:UsbIpServer"]}
{"id": "C25", "title": "No device is lost or duplicated", "statement": "Provided bus ids are unique, after any schedule the devices that are available or in use are exactly the initial ones plus those added minus those successfully removed, each once.", "quantifier": "every schedule of any number of connections and API calls", "why_tests_cant": "Unbounded interleavings.", "anchors": ["src/lib.rs:handler", "src/lib.rs:UsbIpServer::add_device", "src/lib.rs:UsbIpServer::remove_device"]}
{"id": "C26", "title": "A device is released when its client disconnects", "statement": "When reading from the client fails (end of stream or socket error), the device the connection imported becomes available again and can be imported, and this never panics if bus ids are unique.", "quantifier": "every schedule, every read error", "why_tests_cant": "Any interleaving with other connections.", "anchors": ["src/lib.rs:handler"]}
{"id": "C27", "title": "A device is released however its connection ends", "statement": "Whenever a connection ends, for whatever reason (disconnect, write error, panic while serving a URB, importing something else), the device it had imported becomes available again.", "quantifier": "every way a connection can end", "why_tests_cant": "All crash points.", "anchors": ["src/lib.rs:handler"]}
{"id": "C28", "title": "A failed import changes nothing", "statement": "An OP_REQ_IMPORT for a bus id that is not available is answered with the 8-byte status-1 reply and leaves the server's devices and the connection's current import unchanged.", "quantifier": "every server state and bus id", "why_tests_cant": "All states.", "anchors": ["src/lib.rs:handler"]}
{"id": "C29", "title": "The device list shows exactly the importable devices", "statement": "OP_REP_DEVLIST lists exactly the devices that are currently available, in order, with a correct count: an imported device disappears from it and reappears (at the end) when released; listing changes no state.", "quantifier": "every reachable server state", "why_tests_cant": "All histories.", "anchors": ["src/lib.rs:handler", "src/usbip_protocol.rs:UsbIpResponse::op_rep_devlist"]}
{"id": "C30", "title": "remove_device semantics", "statement": "remove_device removes the first available device with that bus id and returns Ok; if none is available but one is in use it fails with kind Other and changes nothing; otherwise it fails with NotFound and changes nothing; the answer is consistent with a single instant of the concurrent execution.", "quantifier": "every server state, every schedule", "why_tests_cant": "Concurrent imports/releases between its two lock acquisitions.", "anchors": ["src/lib.rs:UsbIpServer::remove_device"]}
{"id": "C31", "title": "add_device semantics", "statement": "After add_device(d) completes, d is the last available device; every other device keeps its position and status.", "quantifier": "every server state", "why_tests_cant": "All states.", "anchors": ["src/lib.rs:UsbIpServer::add_device"]}
{"id": "C32", "title": "Sharing a bus id is safe", "statement": "Exclusivity, conservation and panic-free release also hold when several devices have the same bus id (as every UsbDevice::new has).", "quantifier": "every schedule with duplicate bus ids", "why_tests_cant": "Needs specific interleavings of two clients.", "anchors": ["src/lib.rs:handler", "src/device.rs:UsbDevice::new"]}
{"id": "C33", "title": "Which device an import request selects", "statement": "An import request selects the first available device whose bus id bytes equal the request's 32-byte field up to its first NUL (or all 32 bytes); a device is selectable by some request if and only if its bus id has at most 32 bytes and contains no NUL.", "quantifier": "every request and every list of devices", "why_tests_cant": "All 2^256 bus id fields.", "anchors": ["src/lib.rs:handler"]}
{"id": "C34", "title": "Freedom from deadlock", "statement": "No schedule of connections and API calls deadlocks on the server's locks: if nobody is blocked writing to a socket, every pending operation can complete.", "quantifier": "every schedule of any number of connections, add_device and remove_device calls", "why_tests_cant": "Deadlocks need specific interleavings.", "anchors": ["src/lib.rs:UsbIpServer::remove_device", "src/lib.rs:handler"]}
{"id": "C35", "title": "Progress without remove_device", "statement": "In a system where no remove_device call is waiting for the in-use table, every schedule of internal steps terminates and ends with every lock request granted and every operation complete, except those queued behind a connection blocked writing to its own socket.", "quantifier": "every reachable state, every schedule", "why_tests_cant": "Unbounded interleavings; liveness.", "anchors": ["src/lib.rs:handler", "src/lib.rs:UsbIpServer::add_device"]}
{"id": "C36", "title": "A slow client cannot block others", "statement": "A client that stops reading its socket does not prevent other clients from being served.", "quantifier": "every schedule", "why_tests_cant": "Needs socket back-pressure at a specific moment.", "anchors": ["src/lib.rs:handler"]}
{"id": "C37", "title": "A crashing connection does not take locks with it", "statement": "When a connection ends in any way (including a panic while serving), it holds and waits for no server lock afterwards, and other connections' imports are unchanged.", "quantifier": "every schedule and every crash point", "why_tests_cant": "All crash points.", "anchors": ["src/lib.rs:handler", "src/lib.rs:server"]}
{"id": "C38", "title": "Concurrent operations are atomic", "statement": "Every concurrent execution has the same effect on the devices and the same replies as some sequential order of the individual operations (import, release, list, submit, add, remove), consistent with real-time order.", "quantifier": "every schedule", "why_tests_cant": "Unbounded interleavings.", "anchors": ["src/lib.rs:UsbIpServer", "src/lib.rs:handler"]}
{"id": "C39", "title": "Device descriptor content", "statement": "GET_DESCRIPTOR(device) answers the 18-byte descriptor whose fields are the device's own (USB 2.0 table 9-8 layout), cut to wLength bytes.", "quantifier": "every device and every wLength", "why_tests_cant": "All devices and lengths.", "anchors": ["src/device.rs:UsbDevice::handle_urb"]}
{"id": "C40", "title": "Configuration descriptor content", "statement": "GET_DESCRIPTOR(configuration) answers a descriptor tree from which a USB host recovers the configuration value and, in order, every interface (number, class triple, string index, class-specific bytes) and every endpoint (address, attributes, max packet size, interval), with wTotalLength equal to the real length, cut to wLength bytes; for at most 255 interfaces, at most 255 endpoints each, well-formed class-specific bytes and a total of at most 65535 bytes.", "quantifier": "every device within these limits and every wLength", "why_tests_cant": "Unbounded topologies.", "anchors": ["src/device.rs:UsbDevice::handle_urb"]}
{"id": "C41", "title": "String descriptor content", "statement": "GET_DESCRIPTOR(string, i) for an index in use answers bLength, type 3 and the UTF-16LE encoding of exactly the string stored there (decoding it gives back the original Unicode string), cut to wLength; index 0 answers the language table; an unused index is an error.", "quantifier": "every string of at most 126 UTF-16 units, every index, every wLength", "why_tests_cant": "All Unicode strings.", "anchors": ["src/device.rs:UsbDevice::handle_urb"]}
{"id": "C42", "title": "String descriptors of long strings", "statement": "The bLength of a string descriptor equals its real length for strings of any length, and requesting one never aborts the connection.", "quantifier": "every string", "why_tests_cant": "Boundary at 127 UTF-16 units; build-mode dependent.", "anchors": ["src/device.rs:UsbDevice::handle_urb"]}
{"id": "C43", "title": "Standard descriptor replies are prefixes bounded by wLength", "statement": "The reply to a standard GET_DESCRIPTOR request is the full descriptor if it fits in wLength bytes and otherwise exactly its first wLength bytes.", "quantifier": "every device, every descriptor type and index, every wLength", "why_tests_cant": "16-bit wrap-around of the length comparison only shows for descriptors of 64 KiB or more.", "anchors": ["src/device.rs:UsbDevice::handle_urb"]}
{"id": "C44", "title": "String indices stay consistent through any sequence of name changes", "statement": "After any sequence of set_/unset_ name calls and with_interface calls on a fresh device, each name that is set is retrievable through the index its descriptor field reports, unset names report index 0, different names never share an index, interface names are never disturbed, and each call returns the previous name exactly when one was set.", "quantifier": "every sequence of builder/setter calls (that does not exhaust the 254 indices)", "why_tests_cant": "Unbounded histories.", "anchors": ["src/device.rs:UsbDevice::new", "src/device.rs:UsbDevice::set_configuration_name", "src/device.rs:UsbDevice::with_interface", "src/device.rs:UsbDevice::new_string"]}
{"id": "C45", "title": "Running out of string indices is reported", "statement": "Allocating a string when no index is left panics with 'string poll exhausted', in every build, and never returns index 0.", "quantifier": "every pool state, both build modes", "why_tests_cant": "Needs 255 strings; differs between builds.", "anchors": ["src/device.rs:UsbDevice::new_string"]}
{"id": "C46", "title": "BCD versions are reported faithfully", "statement": "The bcdDevice/bcdUSB half-words reported in descriptors and device lists encode the device's version in BCD (major, minor and patch nibbles), e.g. a Version converted from a bcd half-word is reported back as that half-word.", "quantifier": "all 2^16 bcd values", "why_tests_cant": "2^16 values.", "anchors": ["src/device.rs:Version", "src/device.rs:UsbDevice::handle_urb", "src/device.rs:UsbDevice::to_bytes"]}
{"id": "C47", "title": "verify_descriptor decides well-formedness", "statement": "verify_descriptor returns normally exactly when the bytes split into consecutive blocks whose first byte is their own length, and panics otherwise.", "quantifier": "every byte string", "why_tests_cant": "Unbounded inputs; termination.", "anchors": ["src/util.rs:verify_descriptor"]}
{"id": "C48", "title": "Exactly which control requests abort the connection", "statement": "handle_urb panics exactly for: control requests to a recipient other than device/interface, device requests it does not implement when there is no device handler, interface requests with an out-of-range interface number, endpoints with unknown attributes, non-control transfers on endpoint zero, over-long strings in debug builds, a poisoned handler, or a handler that itself panics.", "quantifier": "every device, endpoint, setup packet and handler", "why_tests_cant": "2^64 setup packets times all devices.", "anchors": ["src/device.rs:UsbDevice::handle_urb"]}
{"id": "C49", "title": "Standard requests a USB host may send never abort the connection", "statement": "Every standard device/interface/endpoint request of USB 2.0 chapter 9 (e.g. GET_STATUS, GET_CONFIGURATION, CLEAR_FEATURE) to a simulated device gets a reply.", "quantifier": "all standard requests", "why_tests_cant": "All request/recipient combinations.", "anchors": ["src/device.rs:UsbDevice::handle_urb"]}
{"id": "C50", "title": "Interface requests reach the interface the host saw", "statement": "A control request with interface recipient and wIndex = n is delivered to the handler of the interface whose descriptor carries bInterfaceNumber n.", "quantifier": "every device with at most 256 interfaces, every request", "why_tests_cant": "All topologies.", "anchors": ["src/device.rs:UsbDevice::handle_urb"]}
{"id": "C51", "title": "Keyboard events are delivered once, in order", "statement": "Reading the keyboard's interrupt IN endpoint any number of times, interleaved arbitrarily with queueing key events, delivers each queued event exactly once in queueing order, each followed by a key-release report before the next one.", "quantifier": "every interleaving of queueing and polling", "why_tests_cant": "Unbounded histories.", "anchors": ["src/hid.rs:UsbHidKeyboardHandler::handle_urb"]}
{"id": "C52", "title": "Keyboard reports match the report descriptor", "statement": "Every non-empty input report has the length announced by the report descriptor.", "quantifier": "every keyboard state", "why_tests_cant": "State dependent.", "anchors": ["src/hid.rs:UsbHidKeyboardHandler::handle_urb", "src/hid.rs:UsbHidKeyboardHandler::new_keyboard"]}
{"id": "C53", "title": "ASCII to key code", "statement": "UsbHidKeyboardReport::from_ascii maps a-z, 1-9, 0, CR, LF to the HID usage ids of those keys without modifiers and panics for every other byte; distinct characters give distinct key codes except CR and LF.", "quantifier": "all 256 bytes", "why_tests_cant": "Exhaustive claim; tests check none.", "anchors": ["src/hid.rs:UsbHidKeyboardReport::from_ascii"]}
{"id": "C54", "title": "A client cannot disable a shared handler", "statement": "No request of a client can make later uses of an interface handler (by other clients or by the application) fail.", "quantifier": "every request sequence", "why_tests_cant": "Needs lock poisoning through a panic.", "anchors": ["src/hid.rs:UsbHidKeyboardHandler::handle_urb", "src/device.rs:UsbDevice::handle_urb"]}
{"id": "C55", "title": "Serial data is delivered once, in order", "statement": "Polling the CDC bulk IN endpoint any number of times, interleaved arbitrarily with the application queueing bytes, delivers exactly the queued bytes, each once, in order; interrupt polls and bulk OUT transfers do not consume any.", "quantifier": "every interleaving of queueing and polling", "why_tests_cant": "Unbounded histories.", "anchors": ["src/cdc.rs:UsbCdcAcmHandler::handle_urb"]}
{"id": "C56", "title": "Only bulk IN consumes serial data", "statement": "Serial data is handed out only on the bulk IN endpoint.", "quantifier": "every request to the CDC interface", "why_tests_cant": "All requests.", "anchors": ["src/cdc.rs:UsbCdcAcmHandler::handle_urb"]}
{"id": "C57", "title": "libusb passthrough forwards exactly the client's transfer", "statement": "For a host device shared through libusb, each URB causes exactly one libusb transfer of the endpoint's type and direction with the client's own parameters and payload (none for isochronous endpoints); IN data is returned unmodified and never exceeds the requested length.", "quantifier": "every URB, every libusb answer", "why_tests_cant": "Oracle behaviour is external.", "anchors": ["src/host.rs:RusbUsbHostInterfaceHandler", "src/host.rs:RusbUsbHostDeviceHandler"]}
{"id": "C58", "title": "Host transfer failures are reported to the client", "statement": "If the host transfer fails, the client's URB fails.", "quantifier": "every URB, every libusb error", "why_tests_cant": "Needs failing hardware.", "anchors": ["src/host.rs"]}
{"id": "C59", "title": "nusb passthrough", "statement": "For a host device shared through nusb, control URBs with a standard/class/vendor type and a device/interface/endpoint/other recipient are forwarded with the same type, recipient, request, value, index and data; all other control types/recipients and every bulk or interrupt URB abort the connection.", "quantifier": "every URB, every nusb answer", "why_tests_cant": "All request types.", "anchors": ["src/host.rs:NusbUsbHostInterfaceHandler", "src/host.rs:NusbUsbHostDeviceHandler"]}
{"id": "C60", "title": "Host devices get distinct, importable bus ids", "statement": "Bus ids built for host devices are distinct for distinct (bus, address) pairs, contain no NUL and fit in the protocol's 32-byte field, so each shared host device can be imported individually; paths fit their 256-byte field.", "quantifier": "every list of host devices", "why_tests_cant": "Decimal formatting of all numbers.", "anchors": ["src/lib.rs:UsbIpServer::with_rusb_device_handles", "src/lib.rs:UsbIpServer::with_nusb_devices"]}
{"id": "C61", "title": "Host enumeration keeps every usable device", "statement": "Devices that cannot be opened or described are skipped, all others are shared in order with their ids, classes, endpoints and strings as the host reports them.", "quantifier": "every list of host devices and failures", "why_tests_cant": "Failures need hardware.", "anchors": ["src/lib.rs:UsbIpServer::with_rusb_device_handles", "src/lib.rs:UsbIpServer::with_nusb_devices"]}
{"id": "C62", "title": "The HID descriptor matches the report descriptor", "statement": "The HID class descriptor in the configuration announces HID 1.11, one report descriptor and exactly the length of the report descriptor that GET_DESCRIPTOR(report) on the interface returns; fetching it does not change the keyboard.", "quantifier": "every report descriptor below 64 KiB, every such request", "why_tests_cant": "Tests use the one built-in descriptor.", "anchors": ["src/hid.rs:UsbHidKeyboardHandler::get_class_specific_descriptor", "src/hid.rs:UsbHidKeyboardHandler::handle_urb"]}
{"id": "C63", "title": "Class-specific descriptors of the bundled handlers are well-formed", "statement": "The class-specific descriptors of the keyboard and of the serial port are sequences of well-formed descriptor blocks without interface or endpoint descriptors, so configurations built from them can be parsed back.", "quantifier": "every handler state, every device built from them", "why_tests_cant": "Tests look at one configuration.", "anchors": ["src/hid.rs:UsbHidKeyboardHandler::get_class_specific_descriptor", "src/cdc.rs:UsbCdcAcmHandler::get_class_specific_descriptor"]}
{"id": "C64", "title": "Every client sees a well-formed dialogue, whatever the interleaving and fragmentation", "statement": "With any number of connections served concurrently, and bytes arriving and leaving in pieces of any size at any time: what each client has been sent is exactly the replies to the complete messages it sent so far, in order, followed by at most a prefix of the reply to its next message; a connection that waits for input has nothing complete left unread and has answered everything; and a complete message that arrived at a waiting connection is received after finitely many polls of its reader.", "quantifier": "every schedule of every number of connections and API calls, every fragmentation in both directions, every handler", "why_tests_cant": "Tests run one client at a time against an in-memory stream that holds a whole message.", "anchors": ["src/usbip_protocol.rs:UsbIpCommand::read_from_socket", "src/lib.rs:handler", "src/lib.rs:server"]}
{"id": "C65", "title": "Bytes add no behaviour: the server on byte streams and the server on whole commands do the same", "statement": "Every execution of the concurrent server on byte streams has the same observable events and ends in the same server state as an execution in which each command is received and each reply is finished in one step, where received commands are well-formed and read errors are those the protocol defines; and every such command-level execution is realised by some arrival of bytes.", "quantifier": "every schedule, every fragmentation, every handler; both directions", "why_tests_cant": "It compares two infinite sets of interleavings.", "anchors": ["src/usbip_protocol.rs:UsbIpCommand::read_from_socket", "src/lib.rs:handler"]}
{"id": "C66", "title": "Clients are isolated from each other", "statement": "The state of a handler changes only when the application changes it or when a URB is served for the connection holding a device that uses it. If a device shares no handler with another one, the connection holding it gets, whatever other clients do at the same time, exactly the answers it would get if its URBs were served with nobody else around, and leaves the device's handlers in the same state.", "quantifier": "every schedule of any number of connections and API calls, every handler, every list of devices with distinct bus ids", "why_tests_cant": "It quantifies over all interleavings with all behaviours of other clients.", "anchors": ["src/lib.rs:handler", "src/device.rs:UsbDevice::handle_urb", "src/interface.rs:UsbInterface"]}
{"id": "C67", "title": "Only direction, endpoint, buffer length, setup and data of a URB matter", "statement": "Two CMD_SUBMIT messages that agree on direction, endpoint, transfer_buffer_length, setup packet and data have the same effect on the server and its handlers, and their replies are the same from byte 20 on; seqnum, devid, transfer_flags, start_frame, number_of_packets, interval and iso descriptors change nothing but the echoed header.", "quantifier": "every pair of such messages, every connection state, every handler, debug and release builds", "why_tests_cant": "Pairs of executions over all messages.", "anchors": ["src/lib.rs:handler", "src/usbip_protocol.rs:UsbIpCommand::read_from_socket"]}
{"id": "C68", "title": "A URB for another device id is refused", "statement": "A CMD_SUBMIT whose devid is not that of the device imported on the connection is not executed.", "quantifier": "every connection state, every message", "why_tests_cant": "All device ids.", "anchors": ["src/lib.rs:handler"]}
{"id": "C69", "title": "Isochronous replies describe their packets", "statement": "The reply to an isochronous URB carries the request's number_of_packets and one 16-byte descriptor per packet.", "quantifier": "every isochronous URB", "why_tests_cant": "No test uses isochronous transfers.", "anchors": ["src/lib.rs:handler", "src/usbip_protocol.rs:UsbIpResponse::usbip_ret_submit_success"]}
{"id": "C70", "title": "Device list and import reply describe a device by the same record", "statement": "The 312-byte device record in the reply to an import is byte for byte the record of that device in a device list requested before.", "quantifier": "every list of devices that fit the fixed-size fields, every requested bus id, any later input", "why_tests_cant": "All lists of devices.", "anchors": ["src/usbip_protocol.rs:UsbIpResponse::to_bytes", "src/device.rs:UsbDevice::to_bytes", "src/device.rs:UsbDevice::to_bytes_with_interfaces"]}
{"id": "C71", "title": "A host can enumerate every device within the descriptor limits", "statement": "After importing an available device whose descriptors are within the limits of USB, a host may ask for the device, configuration, string and qualifier descriptors with any lengths and set the configuration, in any order and any number of times: each request gets its own successful reply with (a prefix of) the descriptor that decodes to the device, no handler is touched, and the session continues.", "quantifier": "every such device, every sequence of such requests, every handler, debug and release builds", "why_tests_cant": "Unboundedly many request sequences and devices.", "anchors": ["src/lib.rs:handler", "src/device.rs:UsbDevice::handle_urb", "src/device.rs:UsbDevice::to_bytes"]}
{"id": "C72", "title": "Interleaving between awaits changes nothing", "statement": "On a multi-threaded runtime other tasks run between any two accesses of a task to shared data. If every lock request, every dropped guard, every look into or update of the device collections and every handler call is a step of its own, exactly the same sequences of inputs, answers, handler states and API results are possible as when tasks run undisturbed from await to await; and left alone the threads come to rest at awaits after finitely many steps.", "quantifier": "every handler, every set of devices, every schedule of either model", "why_tests_cant": "Data races show up under schedules that tests cannot force.", "anchors": ["src/lib.rs:handler", "src/lib.rs:UsbIpServer::add_device", "src/lib.rs:UsbIpServer::remove_device"]}
{"id": "C73", "title": "Device collections are only touched under their locks", "statement": "A step of a task without a guard of a lock neither depends on nor changes the collection the lock protects; a collection only changes while the task that changes it is the only holder of the lock.", "quantifier": "every reachable instant of the fine-grained server, every step", "why_tests_cant": "Holds at every instant of unboundedly many executions.", "anchors": ["src/lib.rs:handler", "src/lib.rs:UsbIpServer::add_device", "src/lib.rs:UsbIpServer::remove_device"]}
{"id": "C74", "title": "Nobody starves under a fair scheduler", "statement": "Take any infinite execution of the server in which the scheduler is fair (a task that can go on, or a lock that can be granted, is not passed over for ever), every reply is eventually read or its connection fails, and no call of remove_device misses its device. Then every command received is eventually served and answered, every closed connection ends, every add_device and remove_device call takes effect, however many other clients keep the server busy. If a remove_device call misses its device, or if a client does not read, this fails even with a fair scheduler.", "quantifier": "every infinite execution, every handler, every set of devices", "why_tests_cant": "A statement about infinite executions; tests are finite.", "anchors": ["src/lib.rs:handler", "src/lib.rs:UsbIpServer::add_device", "src/lib.rs:UsbIpServer::remove_device"]}
{"id": "C75", "title": "A host sees what was built", "statement": "A device made by UsbDevice::new and any sequence of with_interface and name setters, with arguments within the limits of USB, is enumerable, and a host reading its descriptors learns exactly the arguments: the interfaces in order with their codes, endpoints and class-specific bytes, and every name, default or given, changed or removed, through the string index found in the descriptors. If the endpoint addresses differ, each leads to the handler it was declared with.", "quantifier": "every device number, every sequence of builder calls, every handler, debug and release builds", "why_tests_cant": "Unboundedly many sequences of builder calls; tests build one device.", "anchors": ["src/device.rs:UsbDevice::new", "src/device.rs:UsbDevice::with_interface", "src/device.rs:UsbDevice::new_string", "src/device.rs:UsbDevice::handle_urb", "src/device.rs:UsbDevice::find_ep"]}
{"id": "C76", "title": "The remaining descriptor types", "statement": "GET_DESCRIPTOR for the device qualifier returns the 10-byte qualifier repeating the device's USB version, class triple and endpoint-0 packet size; for BOS it returns a BOS descriptor announcing no capabilities; for every descriptor type other than device, configuration, string, qualifier and BOS it returns success with no bytes. Each reply is cut to wLength and changes nothing.", "quantifier": "every device, descriptor type, index and wLength", "why_tests_cant": "256 descriptor types times 256 indices times 65536 lengths.", "anchors": ["src/device.rs:UsbDevice::handle_urb", "src/consts.rs:DescriptorType"]}
{"id": "C77", "title": "Dropping a future harms nobody else", "statement": "The application may drop the future of handler, add_device or remove_device at any await (timeout, select!, abort, shutdown). Whatever is dropped when: no two connections hold one device, no device is lost or duplicated, a connection reaches only the handlers of the device it holds, the dropped call keeps no lock and no place in a queue, nobody else gains or loses one, devices and handlers stay as they were, and the dropped call has taken effect as a whole or not at all.", "quantifier": "every interleaving of every number of connections, API calls and cancellations", "why_tests_cant": "Needs a cancellation at every await of every interleaving.", "anchors": ["src/lib.rs:handler", "src/lib.rs:UsbIpServer::add_device", "src/lib.rs:UsbIpServer::remove_device"]}
{"id": "C78", "title": "A dropped connection gives its device back", "statement": "When the application drops the future of a connection that has imported a device, the device becomes available again.", "quantifier": "every interleaving with cancellations", "why_tests_cant": "The loss is permanent over all later executions.", "anchors": ["src/lib.rs:handler"]}
{"id": "C79", "title": "Timeouts on replies and on remove_device are enough", "statement": "If the application drops replies that cannot be written and remove_device calls that wait for the in-use table, then from every reachable state everybody gets through without any client doing anything: nobody waits for a lock any more, every add_device call returns, and every closed connection ends by itself.", "quantifier": "every reachable state", "why_tests_cant": "Quantifies over all reachable states and the continuations from them.", "anchors": ["src/lib.rs:handler", "src/lib.rs:UsbIpServer::add_device", "src/lib.rs:UsbIpServer::remove_device"]}
{"id": "C80", "title": "A slow handler holds up only its own client", "statement": "While handle_urb of one device's handler takes its time, the other connections are served and the application can add and remove devices.", "quantifier": "every reachable state in which a connection is inside a handler call, everything the others do meanwhile", "why_tests_cant": "Who gets stuck depends on which requests are queued at which moment of the call.", "anchors": ["src/lib.rs:handler", "src/device.rs:UsbDevice::handle_urb"]}
{"id": "C81", "title": "Replies to OUT transfers report how much was written", "statement": "The reply to an OUT transfer that a handler has taken reports in actual_length the number of bytes taken, in the 48 bytes of a reply without payload.", "quantifier": "every OUT submit, every handler, debug and release builds", "why_tests_cant": "For every handler and every payload.", "anchors": ["src/lib.rs:handler", "src/usbip_protocol.rs:UsbIpResponse::usbip_ret_submit_success", "src/usbip_protocol.rs:UsbIpResponse::to_bytes"]}
{"id": "C82", "title": "The server keeps accepting clients", "statement": "Once its listener is bound, `server` accepts for ever: whatever its connections do, whichever of them fail or panic and however often accept fails, the next client is accepted and served by a task of its own that starts without a device. Only clients that were accepted are served. A server that could not bind serves nobody; one whose future was dropped accepts nobody new and serves the clients it has as before.", "quantifier": "every run of listener, connections and API calls, debug and release builds", "why_tests_cant": "Over every sequence of accepts, failures, panics, drops and everything the connections do in between.", "anchors": ["src/lib.rs:server", "src/lib.rs:handler"]}
{"id": "C83", "title": "Host devices are presented with their real speed", "statement": "The speed field of the reply to an import of a shared host device is the USB/IP code (Linux usb_device_speed) of the speed that the host library reports for it.", "quantifier": "every list of host devices, rusb and nusb, debug and release builds", "why_tests_cant": "Needs real devices of every speed on the host; a test with simulated devices never runs this code.", "anchors": ["src/lib.rs:UsbIpServer::with_rusb_device_handles", "src/lib.rs:UsbIpServer::with_nusb_devices", "src/consts.rs:UsbSpeed"]}
{"id": "C84", "title": "Left alone, the server answers everything", "statement": "When nothing more comes from outside (no bytes, no connections, no API calls) and clients take the replies, the server comes to rest after finitely many steps, whatever the schedule. Unless a remove_device call waits for the in-use table (C34), at rest every API call has returned and every connection that has not ended has sent complete replies to all complete messages it got, in order, and nothing else; what it has not answered is not a complete message, and its client has not closed the stream.", "quantifier": "every reachable state of the byte-level server, every schedule, every way of cutting messages and replies into pieces, debug and release builds", "why_tests_cant": "Termination over all schedules; a test runs one and cannot tell slow from never.", "anchors": ["src/lib.rs:handler", "src/usbip_protocol.rs:UsbIpCommand::read_from_socket"]}
{"id": "C85", "title": "The example keyboard types one key per round of its loop", "statement": "What polls of the interrupt endpoint of the example keyboard program have returned, over all connections, is the beginning of: press 1, release, press 1, release, ... with one press for each round of the main loop; the next poll returns the next action, or nothing when all has been shown.", "quantifier": "every run of the program: any number of clients, any requests, any interleaving with the main loop, debug and release builds", "why_tests_cant": "Interleavings of the main loop with any number of clients that come, poll, break off and return.", "anchors": ["examples/hid_keyboard.rs:main", "src/hid.rs:UsbHidKeyboardHandler::handle_urb", "src/lib.rs:server", "src/lib.rs:handler"]}
{"id": "C86", "title": "The example serial port sends one byte per round of its loop", "statement": "The bytes that polls of the bulk IN endpoint of the example serial program have returned, over all connections, are the bytes produced by the main loop, each once, in order; a poll returns all that is left.", "quantifier": "every run of the program: any number of clients, any requests, any interleaving with the main loop, debug and release builds", "why_tests_cant": "A test with a client that only polls does not see the bytes that a control request takes away.", "anchors": ["examples/cdc_acm_serial.rs:main", "src/cdc.rs:UsbCdcAcmHandler::handle_urb", "src/lib.rs:server", "src/lib.rs:handler"]}
{"id": "C87", "title": "A client cannot stop the example programs", "statement": "Whatever clients send, the main task of the example programs does not panic, so the process goes on.", "quantifier": "every run of either program with commands read from sockets, debug and release builds", "why_tests_cant": "Over everything clients can send; one request among 2^64 setup packets is enough.", "anchors": ["examples/hid_keyboard.rs:main", "examples/cdc_acm_serial.rs:main", "src/hid.rs:UsbHidKeyboardHandler::handle_urb", "src/cdc.rs:UsbCdcAcmHandler::handle_urb"]}
{"id": "C88", "title": "A debug build differs from a release build only by stopping", "statement": "On the same input, and under the same schedule, a debug build and a release build do the same thing, byte for byte and event for event, until an arithmetic overflow or a debug_assert! stops the debug build; what it has sent by then is what the release build has sent by then. The release build never stops for those two reasons.", "quantifier": "every input and pending socket end of one connection; every schedule of any number of clients on byte streams; every use of the builder calls and of the device constructors; every value given to the encoders and decoders", "why_tests_cant": "Tests run one build profile; agreement of the two is a statement about pairs of runs, over all inputs and interleavings.", "anchors": ["src/lib.rs:handler", "src/usbip_protocol.rs:UsbIpCommand::read_from_socket", "src/usbip_protocol.rs:UsbIpResponse::to_bytes", "src/device.rs:UsbDevice::new_string", "src/device.rs:UsbDevice::handle_urb", "src/lib.rs:UsbIpServer::with_rusb_device_handles"]}
{"id": "C89", "title": "The numeric codes are those of the standards", "statement": "Each member of the enumerations of class codes, descriptor types, HID descriptor types, transfer types and speeds has the number that the USB-IF tables (for speeds: Linux) give it; numbers from the wire are recognised as a standard request, descriptor type or transfer type exactly when the tables contain them, and as the one of that name; the protocol numbers are those of the kernel.", "quantifier": "every member of every enumeration; every number, in the decoding direction", "why_tests_cant": "The tests use a handful of the codes, and both sides of a test share the same constant.", "anchors": ["src/consts.rs:ClassCode", "src/consts.rs:StandardRequest", "src/consts.rs:DescriptorType", "src/consts.rs:EndpointAttributes", "src/consts.rs:UsbSpeed", "src/hid.rs:HidDescriptorType", "src/usbip_protocol.rs:USBIP_VERSION"]}
{"id": "C90", "title": "Handler calls that block do not stop the server", "statement": "While handler calls of some clients take long, other clients are still accepted and served, on a runtime with any number of worker threads.", "quantifier": "every number of worker threads, every server, every set of calls in progress, every continuation; debug and release builds", "why_tests_cant": "Depends on the number of cores of the machine and on several clients polling idle devices at the same moment.", "anchors": ["src/lib.rs:server", "src/lib.rs:handler", "src/device.rs:UsbDevice::handle_urb", "src/host.rs:RusbUsbHostInterfaceHandler::handle_urb", "examples/host.rs:main"]}
{"id": "C91", "title": "A HID host sees what is typed", "statement": "A host that follows the HID specification learns from the report descriptor that the device is a keyboard, and decoding with it the reports of the interrupt endpoint it sees, for every text of supported characters, exactly the keys of the text go down and up one after the other, each alone; every other report that can be queued shows the modifiers of its bits and the keys of its codes.", "quantifier": "every text, every report value, every interleaving of queueing, polling and other requests", "why_tests_cant": "Needs a HID parser on the other side; the tests only look at the first bytes of the class descriptor.", "anchors": ["src/hid.rs:UsbHidKeyboardHandler::new_keyboard", "src/hid.rs:UsbHidKeyboardReport::from_ascii", "src/hid.rs:UsbHidKeyboardHandler::handle_urb"]}
{"id": "C92", "title": "Class drivers recognise the devices of the example programs", "statement": "The configuration that a host reads from the keyboard program shows one HID interface whose HID descriptor announces the report descriptor with its real length and whose interrupt IN endpoint holds a whole report; that of the serial program shows one CDC ACM interface with a header and an ACM functional descriptor and exactly one interrupt IN, one bulk IN and one bulk OUT endpoint.", "quantifier": "both programs, every request for the configuration, every connection state, debug and release builds", "why_tests_cant": "Whether a driver binds is only seen with a real host kernel.", "anchors": ["examples/hid_keyboard.rs:main", "examples/cdc_acm_serial.rs:main", "src/hid.rs:UsbHidKeyboardHandler::get_class_specific_descriptor", "src/cdc.rs:UsbCdcAcmHandler::get_class_specific_descriptor", "src/cdc.rs:UsbCdcAcmHandler::endpoints"]}
{"id": "C93", "title": "A Linux client stays in step with the server", "statement": "The USB/IP client of Linux, which attaches and then sends URBs and unlink requests without waiting for replies, understands everything it reads, however the bytes are cut: it attaches or is refused as the import reply says, every reply completes the oldest of its requests that is still open, with the status and data of that reply, and once both sides are idle nothing is left open and nothing unread; the server, left alone after the client's last byte has arrived, comes to that point whatever it does first, or has ended the connection (remove_device calls apart, C34). Proviso: no reply to an IN URB is longer than its buffer and no reply to an OUT URB carries data; this holds for URBs as the kernel makes them if handlers keep to the lengths, and without it the client drops the connection.", "quantifier": "every server, every run with any other clients, every sequence of client messages sent at any moment, every division of both byte streams; debug and release builds", "why_tests_cant": "Needs the kernel driver on the other side, and pipelined URBs whose replies arrive in pieces.", "anchors": ["src/lib.rs:handler", "src/usbip_protocol.rs:UsbIpResponse::write_to_socket", "src/usbip_protocol.rs:UsbIpResponse::usbip_ret_submit_success", "src/usbip_protocol.rs:UsbIpResponse::usbip_ret_unlink_success", "src/cdc.rs:UsbCdcAcmHandler::handle_urb"]}
{"id": "C94", "title": "A Linux client attached to an example program gets what the program put in", "statement": "A Linux client that imports the keyboard program's device and uses it alone stays in step with it; its requests for the report descriptor return that descriptor, and the reports it is handed, decoded with it, show the keys of the typed text going down and up in order, with nothing lost, repeated or invented; once both sides are idle and the keyboard is empty it has seen the whole text. A client of the serial program gets the bytes put in, in order, split as it reads them, and once idle all of them. Proviso: URBs as the HID and ACM drivers make them, with buffers that hold a report, the report descriptor, or what is queued.", "quantifier": "every moment of every run, every text and every sequence of byte strings put in at any moments, every sequence of client messages, every division of both byte streams, other clients connected but not using the device; debug and release builds", "why_tests_cant": "Needs the kernel drivers, the network and the program together, with URBs in flight while keys are queued.", "anchors": ["examples/hid_keyboard.rs:main", "examples/cdc_acm_serial.rs:main", "src/hid.rs:UsbHidKeyboardHandler::handle_urb", "src/cdc.rs:UsbCdcAcmHandler::handle_urb", "src/lib.rs:handler", "src/usbip_protocol.rs:UsbIpResponse::to_bytes"]}
{"id": "C95", "title": "Builder calls change only what they name", "statement": "After any sequence of builder calls on any device, the fields that are neither names nor interfaces nor the device handler are as before; the interfaces are the old ones followed by those asked for, in order, each as asked; the device handler is the last one given; and the names and interfaces are those of the same sequence without the calls that give a device handler.", "quantifier": "every device, also with fields assigned by the user; every sequence of calls that does not panic; debug and release builds", "why_tests_cant": "The tests build two devices and look at a few fields.", "anchors": ["src/device.rs:UsbDevice::with_interface", "src/device.rs:UsbDevice::with_device_handler", "src/device.rs:UsbDevice::set_product_name", "src/device.rs:UsbDevice::unset_serial_number", "src/device.rs:UsbDevice::new_string"]}
{"id": "C96", "title": "The devices of the host do what their clients ask, and nothing else", "statement": "In the program that shares the devices of its host, the transfers made on each device are exactly those that the URBs of the connections that had imported it ask for, one each and in the order of service: kind and direction of the endpoint, the client's parameters and payload. Nothing else touches a device, and only one connection at a time can. The client is told what the host answered: the bytes read, or nothing for a write or a failed transfer. Proviso: libusb respects buffer lengths; no two devices of the host share bus and address.", "quantifier": "every list of host devices for which the program starts, every behaviour of the devices, every number of clients, every readable sequence of commands, every scheduling; debug and release builds", "why_tests_cant": "Needs real devices, several clients and control over the scheduling; no test has a host device.", "anchors": ["examples/host.rs:main", "src/lib.rs:UsbIpServer::new_from_host", "src/lib.rs:UsbIpServer::with_rusb_device_handles", "src/lib.rs:handler", "src/device.rs:UsbDevice::handle_urb", "src/host.rs:RusbUsbHostInterfaceHandler::handle_urb", "src/host.rs:RusbUsbHostDeviceHandler::handle_urb"]}
{"id": "C97", "title": "Interface requests reach the host's interface they are meant for", "statement": "A control request that a client addresses to an interface it found in the configuration of a shared host device reaches the interface of the real device that has that class and those endpoints.", "quantifier": "every list of host devices, every configuration of them, every request to an interface, both USB libraries; debug and release builds", "why_tests_cant": "No test has a host device; devices whose interface numbers are not 0, 1, 2 in order are rare on a developer's desk.", "anchors": ["src/lib.rs:UsbIpServer::with_rusb_device_handles", "src/lib.rs:UsbIpServer::with_nusb_devices", "src/device.rs:UsbDevice::handle_urb", "src/host.rs:RusbUsbHostInterfaceHandler::handle_urb", "src/host.rs:NusbUsbHostInterfaceHandler::handle_urb"]}
{"id": "C98", "title": "Different devices have different device ids", "statement": "The device ids that clients compute from the bus and device numbers of the import reply differ for different devices of one server.", "quantifier": "every list of host devices, every pair of them; every pair of devices made with UsbDevice::new", "why_tests_cant": "Needs hubs, or two devices on one bus; a statement about all pairs of devices.", "anchors": ["src/lib.rs:UsbIpServer::with_rusb_device_handles", "src/lib.rs:UsbIpServer::with_nusb_devices", "src/device.rs:UsbDevice::new"]}
{"id": "C99", "title": "Failed submits carry an error number", "statement": "The status of a reply to a submit is 0 if the submit succeeded, and otherwise a negative error number, as the Linux client expects; it is not 0 exactly when the endpoint is unknown, the string is unknown, or the handler returned an error.", "quantifier": "every submit for an imported device, every connection state and device, all handlers, debug and release builds", "why_tests_cant": "Tests of failures look at one request each and compare with the constant of the code.", "anchors": ["src/lib.rs:handler", "src/usbip_protocol.rs:UsbIpResponse::usbip_ret_submit_fail", "src/device.rs:UsbDevice::handle_urb"]}
{"id": "C100", "title": "Only configurations that exist can be read or selected", "statement": "GET_DESCRIPTOR of a configuration is answered for the indices below the number of configurations, each with its own descriptor, and refused for others; SET_CONFIGURATION is accepted for the value of such a configuration and refused for others.", "quantifier": "every device, every index and value, every connection state, all handlers, debug and release builds", "why_tests_cant": "Tests use index 0 and value 1 only.", "anchors": ["src/device.rs:UsbDevice::handle_urb"]}
{"id": "C101", "title": "Every client finds a device as it was when it was made", "statement": "What a client gets from a device does not depend on what earlier clients of the device did.", "quantifier": "every sequence of clients, every interleaving with other clients and calls of the application, all handlers, debug and release builds", "why_tests_cant": "Needs a client that leaves in the middle of something and another that takes the device over.", "anchors": ["src/lib.rs:handler", "src/lib.rs:UsbIpServer::server", "src/device.rs:UsbDevice::handle_urb"]}
{"id": "C102", "title": "The drivers of Linux work with the devices of the example programs", "statement": "While the clients of hid_keyboard (cdc_acm_serial) send only what the USB core asks during enumeration and what the driver usbhid (cdc_acm) asks of such a device, the program goes on, every URB of the client that has the device is answered with status 0 and the data asked for, and no connection is ended by a panic, except one that submits without having imported the device.", "quantifier": "every number of clients, every order of such requests, every interleaving with imports, disconnects, broken sockets and the program's main task, debug and release builds", "why_tests_cant": "The example programs have no tests; a manual trial shows one run of one driver version, with one timing.", "anchors": ["examples/hid_keyboard.rs", "examples/cdc_acm_serial.rs", "src/hid.rs:UsbHidKeyboardHandler::handle_urb", "src/cdc.rs:UsbCdcAcmHandler::handle_urb", "src/device.rs:UsbDevice::handle_urb", "src/lib.rs:handler"]}
{"id": "C103", "title": "A device whose client has vanished becomes available again", "statement": "If the client that has imported a device disappears, its machine or its network being gone, then some time later the device is available again: other clients can import it and the application can remove it.", "quantifier": "every set of devices with distinct bus ids, every number of clients, every continuation of the run in which nothing is heard of the vanished client, all handlers, debug and release builds", "why_tests_cant": "Needs a network that drops packets silently and a wait without end; a test that closes the socket shows the other case.", "anchors": ["src/lib.rs:handler", "src/lib.rs:server", "src/lib.rs:UsbIpServer::remove_device"]}
{"id": "C104", "title": "A device picked from the device list can be attached", "statement": "Let a client take the reply to its device-list request, pick an entry and send the bus id of that entry, on this or another connection, at any later time. Then it gets a successful import reply whose record equals the entry picked, and holds the device that the entry describes, unless since the list somebody imported a device with this bus id or the application removed it. (For devices with distinct bus ids, at most 255 interfaces, and paths and bus ids that fit their wire fields and contain no NUL.)", "quantifier": "every set of such devices, every number of clients, everything that other clients and the application do before, between and after the two requests, all handlers, debug and release builds", "why_tests_cant": "The tests of the list and of the import each look at one fixed device alone; none takes the request from the list reply, and none lets others act in between.", "anchors": ["src/lib.rs:handler", "src/usbip_protocol.rs:UsbIpResponse::to_bytes", "src/device.rs:UsbDevice::to_bytes", "src/device.rs:UsbDevice::to_bytes_with_interfaces"]}
{"id": "C105", "title": "The client of a shared host device reads the descriptors of the device", "statement": "When a device of the host is shared, GET_DESCRIPTOR for the device and for the configuration is answered with the device's own descriptors, cut to wLength: the same bytes that the host reads from it.", "quantifier": "every device descriptor and every active configuration of the formats of USB 2.0 (any number of interfaces, alternate settings, endpoints and further descriptors), every list of host devices for which the enumeration succeeds, rusb and nusb, every wLength, debug and release builds", "why_tests_cant": "Needs real devices of all kinds; no test has one, and the handlers of the tests have no descriptors of their own to compare with.", "anchors": ["src/lib.rs:UsbIpServer::with_rusb_device_handles", "src/lib.rs:UsbIpServer::with_nusb_devices", "src/device.rs:UsbDevice::handle_urb", "src/device.rs:UsbDevice::new_string"]}
{"id": "C106", "title": "A device that has nothing to send does not answer polls", "statement": "A poll of an interrupt or bulk IN endpoint is answered only when there is something to send, as a USB device answers NAK and the request stays pending: no poll of the keyboard or the serial port in the example programs is answered with an empty buffer.", "quantifier": "every number of clients, every interleaving of their requests with the rounds of the program, debug and release builds", "why_tests_cant": "The tests of the handlers make one call each and expect the empty answer; how many answers a waiting client gets depends on when it asks.", "anchors": ["examples/hid_keyboard.rs", "examples/cdc_acm_serial.rs", "src/hid.rs:UsbHidKeyboardHandler::handle_urb", "src/cdc.rs:UsbCdcAcmHandler::handle_urb", "src/lib.rs:handler"]}
{"id": "C107", "title": "A short read is an error for a client that says so", "statement": "If a submit for an IN endpoint carries the flag URB_SHORT_NOT_OK (bit 0 of transfer_flags) and the device sends less than transfer_buffer_length, the status of the reply is not 0.", "quantifier": "every such submit, every connection state, all handlers, debug and release builds", "why_tests_cant": "No test sets a transfer flag.", "anchors": ["src/lib.rs:handler", "src/usbip_protocol.rs:UsbIpCommand::read_from_socket"]}
{"id": "C108", "title": "Devices shared through nusb go on working, whatever clients do", "statement": "Nothing that clients send makes a handler of a device shared through nusb unusable: later requests to it are made as if the earlier client had not been there, the transfers that each handler makes are exactly those that clients ask for, once each and in order, and every client is told what the host answered.", "quantifier": "every set of such devices with distinct bus ids, every number of clients, every sequence of requests and disconnects, every interleaving of the connections, every behaviour of the host that keeps to the length of its buffers, debug and release builds", "why_tests_cant": "Needs USB hardware, and several clients one after another; nothing in the repository tests the nusb handlers.", "anchors": ["src/host.rs:NusbUsbHostInterfaceHandler::handle_urb", "src/host.rs:NusbUsbHostDeviceHandler::handle_urb", "src/lib.rs:UsbIpServer::with_nusb_devices", "src/lib.rs:handler", "src/device.rs:UsbDevice::handle_urb"]}
{"id": "C109", "title": "Descriptors do not change while a device is shared", "statement": "Two GET_DESCRIPTOR requests with the same setup packet, endpoint and direction, from whichever clients that have imported the device and at whatever times, are answered with the same status, length and data, or both end their connection the same way, unless the application removes the device in between. The answer depends on nothing but the device and the question: not on the state of its handlers, other devices, other clients, or anything sent before.", "quantifier": "every set of devices with distinct bus ids, every number of clients, every run and every pair of runs of servers that share the device, all handlers and handler states (also poisoned ones), every buffer length, debug and release builds", "why_tests_cant": "A test reads each descriptor once, from a fresh device; a client that finds other descriptors after others used the device needs a long history.", "anchors": ["src/device.rs:UsbDevice::handle_urb", "src/lib.rs:handler", "src/usbip_protocol.rs:UsbIpResponse::to_bytes"]}
