{"id": "C01", "title": "A SlicedView is indistinguishable from the sliced list", "statement": "For every sequence s and every slice object b, len(SlicedView(s, b)) equals len(s[b]) and SlicedView(s, b)[i] equals s[b][i]; indexing raises IndexError exactly when indexing s[b] does (negative indices included), and a zero step raises ValueError in both.", "quantifier": "all element types, all sequences of any length, all slices (start/stop/step absent or any integer), all integer indices", "why_tests_cant": "the space of (length, start, stop, step, index) is infinite and the interesting cases are sign and clamping boundaries", "anchors": ["epsilon/view.py: SlicedView.__getitem__, __len__, _getIndices"]}
{"id": "C02", "title": "Nested slicing of a SlicedView composes", "statement": "Slicing a view any number of times gives a view with exactly the elements, in order, obtained by applying the same slices one after the other to the underlying list.", "quantifier": "all sequences, all finite chains of slices, all indices", "why_tests_cant": "depth of nesting is unbounded", "anchors": ["epsilon/view.py: SlicedView.__getitem__"]}
{"id": "C03", "title": "Record constructors bind arguments like a Python call", "statement": "Calling a record class with positional and keyword arguments either sets every declared attribute to exactly the positional value, keyword value or default that Python's call rules select, or raises TypeError; it raises exactly when there are too many positionals, a name is given twice, a name without default is missing, or an unknown keyword is given. (The constructor's own parameter self counts as given.)", "quantifier": "all lists of distinct attribute names, all default tails, all positional lists and keyword dictionaries", "why_tests_cant": "the combination space of arities, overlaps and defaults is unbounded", "anchors": ["epsilon/structlike.py: StructBehavior.__init__"]}
{"id": "C04", "title": "record() accepts exactly the well-formed definitions", "statement": "record(names, **defaults) succeeds iff there is at most one positional argument, a names string or at least one default is given, every default names an attribute, and the attributes with defaults form a suffix of the attribute list; the class then has exactly those names in order and those defaults aligned to the end.", "quantifier": "all attribute name lists and all default dictionaries", "why_tests_cant": "gaps can appear at any position in a list of any length", "anchors": ["epsilon/structlike.py: record"]}
{"id": "C05", "title": "repr of a record terminates on every object graph", "statement": "repr of a record returns a finite string for every finite object graph, including cyclic and self-containing ones: an object already being rendered is rendered as Name(...) and nothing else is abbreviated.", "quantifier": "all finite heaps of records with arbitrary (cyclic) references", "why_tests_cant": "cycles of every length and shape; a test exercises one cycle", "anchors": ["epsilon/structlike.py: _RecursiveReprer.recursiveRepr, _contextualize, StructBehavior.__repr__"]}
{"id": "C06", "title": "The repr recursion guard is always released", "statement": "After repr of a record returns or raises, the set of objects being rendered is exactly what it was before the call, so a failing attribute repr never makes a later repr abbreviate an object.", "quantifier": "all heaps, all placements of attributes whose repr raises", "why_tests_cant": "exceptions may happen at any nesting depth", "anchors": ["epsilon/structlike.py: _RecursiveReprer.recursiveRepr"]}
{"id": "C07", "title": "A router delivers each box to the receiver bound to its route", "statement": "When a started router receives a box, exactly one receiver gets it: the one most recently bound (and not unbound) under the box's _route value (None when absent); the box it sees is the original box without the _route key; with no such binding KeyError is raised and no receiver is called.", "quantifier": "all histories of bind/unbind/connect/start/stop/receive operations", "why_tests_cant": "depends on the whole history of bindings and rebinding", "anchors": ["epsilon/amprouter.py: Router.ampBoxReceived, Router.bindRoute, Route.unbind"]}
{"id": "C08", "title": "Route identifiers created by a router never repeat", "statement": "Any two identifiers returned by createRouteIdentifier (directly or via bindRoute without a name) on one router are different strings.", "quantifier": "all histories and all pairs of calls", "why_tests_cant": "must hold for arbitrarily long-lived routers", "anchors": ["epsilon/amprouter.py: Router.createRouteIdentifier, Router.bindRoute"]}
{"id": "C09", "title": "A generated route identifier is not yet in use", "statement": "createRouteIdentifier returns an identifier which is not associated with any route of the router (as its documentation says).", "quantifier": "all histories, including routes bound under explicit names", "why_tests_cant": "depends on which explicit names were bound earlier", "anchors": ["epsilon/amprouter.py: Router.createRouteIdentifier"]}
{"id": "C10", "title": "A route's receiver is started exactly once, and only when connected and running", "statement": "In every history in which each route is connected at most once, the receiver of a route gets startReceivingBoxes at most once, with that route as sender; it gets it when the route is connected once the router has been started, or when the router is started while the route is connected and bound, and in no other case.", "quantifier": "all interleavings of bind, connectTo and router start", "why_tests_cant": "the order of the three events is arbitrary and the routes interact through shared dictionaries", "anchors": ["epsilon/amprouter.py: Route.connectTo, Route.start, Router.startReceivingBoxes"]}
{"id": "C11", "title": "Stopping a router stops every bound receiver exactly once", "statement": "stopReceivingBoxes(reason) on a started router calls stopReceivingBoxes(reason) once on the receiver of every bound route, in binding order, and on no other receiver.", "quantifier": "all histories before the stop", "why_tests_cant": "depends on the history of bindings", "anchors": ["epsilon/amprouter.py: Router.stopReceivingBoxes, Route.stop"]}
{"id": "C12", "title": "Boxes sent through a route are tagged with its remote name, or refused", "statement": "Route.sendBox raises RouteNotConnected and sends nothing until the route is connected; afterwards it sends exactly one box: the given box with _route set to the remote name (unchanged if the remote name is None). Route.unhandledError passes the failure to the sender unchanged.", "quantifier": "all histories, all boxes", "why_tests_cant": "depends on history", "anchors": ["epsilon/amprouter.py: Route.sendBox, Route.unhandledError"]}
{"id": "C13", "title": "Two connected routers multiplex independent ordered streams", "statement": "With two started routers joined by an ordered connection and routes paired by name, the sequence of boxes received on each route is exactly the sequence sent on its peer route, in order, for every interleaving of sends and deliveries on all routes.", "quantifier": "all schedules, any number of routes, any boxes without their own _route key", "why_tests_cant": "the number of schedules is unbounded", "anchors": ["epsilon/amprouter.py: Route.sendBox, Router.ampBoxReceived"]}
{"id": "C14", "title": "A correct client response is always accepted", "statement": "For every challenge, nonce and password, a response produced by PasswordChallengeResponse.determineFrom(challenge, password) is accepted by checkPassword(password) of the credentials built from the same challenge.", "quantifier": "all challenges, nonces, passwords (text or bytes)", "why_tests_cant": "all inputs", "anchors": ["epsilon/ampauth.py: _calcResponse, PasswordChallengeResponse.determineFrom, _AMPUsernamePassword.checkPassword"]}
{"id": "C15", "title": "An accepted response binds challenge and password", "statement": "If a response computed for (challenge, nonce, password) is accepted for (challenge', nonce', password') where challenges and nonces are 16 bytes long as generated by the protocol, then either all three components agree or two distinct inputs with the same SHA-1 digest have been exhibited. For nonces of unconstrained length the binding fails without any hash collision.", "quantifier": "all byte strings; the hash is an arbitrary function", "why_tests_cant": "claim about all possible attacker inputs", "anchors": ["epsilon/ampauth.py: _calcResponse, checkPassword"]}
{"id": "C16", "title": "A one-time pad authenticates at most once", "statement": "Over every sequence of login attempts against a OneTimePadChecker, each pad initially in the checker succeeds at most once, yields the avatar id it was registered with, and every other attempt raises UnauthorizedLogin; other pads are unaffected.", "quantifier": "all initial pad dictionaries, all finite sequences of attempts", "why_tests_cant": "history property", "anchors": ["epsilon/ampauth.py: OneTimePadChecker.requestAvatarId"]}
{"id": "C17", "title": "Every successful login is logged out exactly once when the connection ends", "statement": "On a server connection, whatever the sequence of commands, login completions and connection loss, each logout callable handed out by the portal is called exactly once by the time the connection is lost and never before.", "quantifier": "all interleavings of commands, portal completions and connection loss", "why_tests_cant": "schedules, including completions arriving after the connection is lost and several logins in flight", "anchors": ["epsilon/ampauth.py: CredReceiver._login, connectionLost"]}
{"id": "C18", "title": "No avatar is installed without a portal approval", "statement": "The connection's box receiver is changed only to avatars the portal returned for credentials presented on that connection; failed logins leave the receiver and logout unchanged.", "quantifier": "all histories", "why_tests_cant": "history property", "anchors": ["epsilon/ampauth.py: CredReceiver._login, passwordChallengeResponse, otpLogin"]}
{"id": "C19", "title": "Password responses are checked against the latest challenge and username", "statement": "Credentials handed to the portal for PasswordChallengeResponse always carry the username and challenge of the most recent PasswordLogin on the same connection, and PasswordChallengeResponse before any PasswordLogin never reaches the portal.", "quantifier": "all command histories", "why_tests_cant": "history property", "anchors": ["epsilon/ampauth.py: CredReceiver.passwordLogin, passwordChallengeResponse"]}
{"id": "C20", "title": "Exposer.get never returns an unexposed or hidden method", "statement": "If Exposer.get(obj, key) returns a method, the underlying function was passed to expose for that key on this very exposer, is an attribute of a class in the MRO of obj's class, and is not overridden by any class earlier in the MRO under that attribute name; the method is bound to obj.", "quantifier": "all class hierarchies, all exposure histories, all keys", "why_tests_cant": "security claim over all hierarchies", "anchors": ["epsilon/expose.py: Exposer.expose, Exposer.get"]}
{"id": "C21", "title": "Exposer.get finds every visible exposed method", "statement": "If some function exposed under key is the attribute actually found by normal lookup on obj, then Exposer.get(obj, key) returns such a method rather than raising MethodNotExposed.", "quantifier": "all class hierarchies, all exposure histories, all keys", "why_tests_cant": "depends on the order of attributes in arbitrary hierarchies", "anchors": ["epsilon/expose.py: Exposer.get"]}
{"id": "C22", "title": "Exposers are independent", "statement": "Exposing functions with one exposer never changes what any other exposer, or the same exposer under another key, returns; expose returns the decorated object unchanged and NameRequired leaves the exposer unchanged.", "quantifier": "all histories on any number of exposers", "why_tests_cant": "non-interference over all histories", "anchors": ["epsilon/expose.py: Exposer.expose, Exposer.get"]}
{"id": "C23", "title": "Caseless comparison is a total preorder consistent with equality and hash", "statement": "For Caseless values, ==, !=, <, <=, >, >= agree with the lexicographic order of the lower-cased strings, == is an equivalence, exactly one of <, ==, > holds, and equal values have equal hashes.", "quantifier": "all strings; lower is any function on strings", "why_tests_cant": "all inputs", "anchors": ["epsilon/caseless.py: Caseless.__eq__ ... __hash__"]}
{"id": "C24", "title": "A Caseless and a plain string that compare equal hash equal", "statement": "Whenever Caseless(s) == t for a plain string t, hash(Caseless(s)) == hash(t), so the two are interchangeable as dictionary keys.", "quantifier": "all strings", "why_tests_cant": "all inputs", "anchors": ["epsilon/caseless.py: Caseless.__eq__, __hash__"]}
{"id": "C25", "title": "Caseless searching agrees with cased searching up to case", "statement": "in, startswith, endswith, count, find, index, rfind and rindex on Caseless(s) give the result of the same operation on the lower-cased strings; find/index/rfind/rindex results are correct positions in the original string (the slice found there equals the needle up to case) whenever lower-casing acts character by character, and are invariant under changing the case of either operand.", "quantifier": "all haystacks, needles and start/end arguments", "why_tests_cant": "all inputs", "anchors": ["epsilon/caseless.py: __contains__, startswith, endswith, count, find, index, rfind, rindex"]}
{"id": "C26", "title": "A modal instance dispatches to the implementation of its current mode", "statement": "On an instance of a class built with ModalType, getting a modal method returns the implementation defined by the class's mode whose name is the instance's current mode value, and raises AttributeError when that mode does not define it; other instances are unaffected by mode changes.", "quantifier": "all class definitions, all instances, all histories of mode changes", "why_tests_cant": "history and class structure are arbitrary", "anchors": ["epsilon/modal.py: ModalMethod.__get__, ModalType.__new__"]}
{"id": "C27", "title": "transitionTo exits the old mode, switches and enters the new one", "statement": "transitionTo(m) calls __exit__ of the old mode, then sets the mode, then calls __enter__ of the new one, each exactly once and in that order, so enter and exit calls alternate along every history and every exited mode is the one last entered.", "quantifier": "all histories of transitions between modes defining __enter__ and __exit__", "why_tests_cant": "history property", "anchors": ["epsilon/modal.py: Modal.transitionTo"]}
{"id": "C28", "title": "A failed transition leaves the instance in its previous mode", "statement": "If transitionTo raises, the mode of the instance is what it was before the call.", "quantifier": "all instances and target modes", "why_tests_cant": "depends on which modes define __enter__/__exit__ and whether they raise", "anchors": ["epsilon/modal.py: Modal.transitionTo"]}
{"id": "C29", "title": "requiredAttribute yields the last value set, per instance", "statement": "Reading a requiredAttribute raises AttributeError until it is set on that instance, afterwards returns the last value set on that instance; setting it on one instance never affects another; deleting raises AttributeError.", "quantifier": "all histories of gets, sets, deletes on any number of instances", "why_tests_cant": "history property", "anchors": ["epsilon/descriptor.py: attribute, requiredAttribute"]}
{"id": "C30", "title": "remembered creates its value at most once per instance", "statement": "Accessing a remembered attribute calls the creation function on first access for an instance and returns the identical value on every later access without calling it again.", "quantifier": "all instances, all numbers of accesses, all creation results", "why_tests_cant": "history property; depends on the value created", "anchors": ["epsilon/remember.py: remembered.__get__"]}
{"id": "C31", "title": "PendingEvent fires every waiter exactly once", "statement": "Each Deferred returned by PendingEvent.deferred fires exactly once, with the result of the first callback/errback after its creation, in creation order, even when callbacks re-enter the event by asking for new Deferreds or firing it again.", "quantifier": "all histories, all re-entrant listener behaviours", "why_tests_cant": "re-entrancy and history", "anchors": ["epsilon/pending.py: PendingEvent"]}
{"id": "C32", "title": "hotfix.require installs each fix at most once", "statement": "Over any sequence of require calls, the installer of a given fix runs at most once, unknown names raise NoSuchHotfix and record nothing, and a fix whose installation raised is not recorded as installed.", "quantifier": "all sequences of requires, all environments", "why_tests_cant": "history property", "anchors": ["epsilon/hotfix.py: require"]}
{"id": "C33", "title": "react runs the reactor and stops it exactly when main's Deferred has fired", "statement": "react stops the reactor exactly once after main's Deferred fires (with a result or an error, before or after the reactor starts) and does not try to stop a reactor that is already shutting down.", "quantifier": "all interleavings of Deferred firing, reactor start and shutdown", "why_tests_cant": "schedules", "anchors": ["epsilon/react.py: react"]}
{"id": "C34", "title": "Line delivery does not depend on how the stream is chunked", "statement": "For every byte stream and every way of cutting it into chunks, a LineReceiver in line mode delivers exactly the CRLF-separated complete lines of the stream, in order, keeping the unterminated rest buffered.", "quantifier": "all byte strings, all partitions into chunks", "why_tests_cant": "the number of partitions is exponential in the length and the length is unbounded", "anchors": ["epsilon/liner.py: LineReceiver.dataReceived"]}
{"id": "C35", "title": "Switching to raw mode hands over exactly the remaining bytes", "statement": "If the line handler switches to raw mode after some line, the raw handler receives, concatenated over all calls, exactly the bytes of the stream after that line, each byte once and in order, for every chunking; setLineMode(extra) resumes line parsing at exactly that point.", "quantifier": "all streams, chunkings and switching points", "why_tests_cant": "as above, with mode switches anywhere", "anchors": ["epsilon/liner.py: dataReceived, setRawMode, setLineMode"]}
{"id": "C36", "title": "No line is delivered after the transport is disconnecting", "statement": "Once the transport reports disconnecting after a line, no further line or raw data from already received bytes is delivered.", "quantifier": "all streams, chunkings and disconnect points", "why_tests_cant": "schedules", "anchors": ["epsilon/liner.py: dataReceived, isDisconnecting"]}
{"id": "C37", "title": "Boxes survive serialization", "statement": "parseString(box.serialize()) yields exactly one box with the same key/value pairs, for every box whose keys are in canonical form and whose values are arbitrary text, including text with CR LF, colons and blank lines.", "quantifier": "all boxes with canonical keys, all text values", "why_tests_cant": "values contain arbitrary delimiter patterns", "anchors": ["epsilon/juice.py: JuiceBox.serialize, parseJuiceHeaders, normalizeKey, Juice.lineReceived, _ParserHelper"]}
{"id": "C38", "title": "Bodies survive serialization", "statement": "A box with a body round-trips with the identical body, whatever bytes or text the body contains.", "quantifier": "all boxes with bodies", "why_tests_cant": "bodies contain arbitrary bytes; length bookkeeping must be exact", "anchors": ["epsilon/juice.py: JuiceBox.serialize, Juice.rawDataReceived"]}
{"id": "C39", "title": "A stream of boxes is parsed identically under every chunking", "statement": "For every finite list of serializable boxes and every partition of the concatenated serializations into chunks, the receiving protocol delivers exactly those boxes in order and ends in its initial parsing state; on every prefix of the stream it has delivered exactly the boxes whose bytes have fully arrived.", "quantifier": "all box lists, all partitions", "why_tests_cant": "unbounded streams and partitions", "anchors": ["epsilon/juice.py: Juice.dataReceived, lineReceived, rawDataReceived", "epsilon/liner.py: dataReceived"]}
{"id": "C40", "title": "Arbitrary input never desynchronizes chunked parsing", "statement": "For arbitrary (possibly malformed) byte streams the sequence of delivered boxes and the first error are the same for every chunking.", "quantifier": "all byte streams, all partitions", "why_tests_cant": "adversarial input", "anchors": ["epsilon/juice.py: Juice.lineReceived, rawDataReceived, parseJuiceHeaders"]}
{"id": "C41", "title": "Application fields cannot forge protocol fields through values", "statement": "The set of keys of a parsed box equals the set of keys of the box sent: no header value, whatever its content, can introduce, remove or change another field.", "quantifier": "all values", "why_tests_cant": "injection attacks range over all strings", "anchors": ["epsilon/juice.py: JuiceBox.serialize, parseJuiceHeaders"]}
{"id": "C42", "title": "Command argument codecs are inverse to each other", "statement": "For Integer, String, Boolean, ListOf, JuiceList and Time arguments, decoding the encoded form of a value gives the value back, for every value of the type.", "quantifier": "all integers, strings, booleans, lists of any length and nesting", "why_tests_cant": "unbounded values", "anchors": ["epsilon/juice.py: Integer, String, Boolean, ListOf, JuiceList, Time"]}
{"id": "C43", "title": "A whole argument dictionary survives objectsToStrings/stringsToObjects", "statement": "For every argument schema with canonical distinct names and every dictionary supplying all required arguments, stringsToObjects(objectsToStrings(d)) maps each declared name to its value (None for omitted optional ones), provided each codec is invertible.", "quantifier": "all schemas, all dictionaries", "why_tests_cant": "unbounded schemas", "anchors": ["epsilon/juice.py: objectsToStrings, stringsToObjects, Argument.toBox, Argument.fromBox, Argument.retrieve"]}
{"id": "C44", "title": "Commands refuse to be built without their required arguments", "statement": "Constructing a Command raises RuntimeError iff some non-optional argument is missing (up to key normalization), and never otherwise.", "quantifier": "all schemas and keyword dictionaries", "why_tests_cant": "unbounded schemas", "anchors": ["epsilon/juice.py: Command.__init__"]}
{"id": "C45", "title": "Request tags are never reused on a connection", "statement": "All tags placed in -Ask headers by one protocol instance are pairwise different strings.", "quantifier": "all histories", "why_tests_cant": "unbounded histories", "anchors": ["epsilon/juice.py: JuiceParserBase._nextTag, sendBoxCommand"]}
{"id": "C46", "title": "Each answer fires exactly the request it answers", "statement": "When an answer or error box arrives, the Deferred fired is the one returned by the request whose tag it carries, it is fired at most once over the connection's lifetime, with that box or error, and no other Deferred is affected; an unknown tag raises and fires nothing.", "quantifier": "all histories of requests, answers and errors in any order", "why_tests_cant": "schedules and histories", "anchors": ["epsilon/juice.py: JuiceParserBase.juiceBoxReceived, sendBoxCommand"]}
{"id": "C47", "title": "Connection loss fails every outstanding request exactly once", "statement": "On connectionLost every Deferred not yet fired is failed once with the reason, every Deferred ever returned has then fired exactly once, and later requests fail immediately without being sent.", "quantifier": "all histories", "why_tests_cant": "histories and loss point", "anchors": ["epsilon/juice.py: failAllOutgoing, sendBoxCommand, Juice.connectionLost"]}
{"id": "C48", "title": "Every command that asks for an answer gets exactly one answer or error", "statement": "For each received command box with a tag, exactly one answer or error box with that tag is sent once its responder completes (success, declared error, or unhandled exception) while the connection is up; commands without a tag get none.", "quantifier": "all responder outcomes, all completion orders", "why_tests_cant": "schedules of responder completion", "anchors": ["epsilon/juice.py: JuiceParserBase.juiceBoxReceived, DispatchMixin.dispatchCommand"]}
{"id": "C49", "title": "Two connected endpoints agree on every call", "statement": "With two endpoints joined by reliable FIFO byte pipes that cut the stream arbitrarily, every completed request has received the answer computed by the peer's responder for exactly that request, under every interleaving.", "quantifier": "all schedules, all chunkings, all command sequences in both directions", "why_tests_cant": "unbounded schedules", "anchors": ["epsilon/juice.py: sendBoxCommand, juiceBoxReceived, Juice.dataReceived"]}
{"id": "C50", "title": "Declared errors are translated and others close the connection", "statement": "A responder exception listed in errors reaches the caller as the exception class mapped from its code; an undeclared exception is reported as UNHANDLED and the connection is dropped; an exception listed in fatalErrors is reported and the connection is dropped.", "quantifier": "all commands and all responder exceptions", "why_tests_cant": "all error tables and subclass relations", "anchors": ["epsilon/juice.py: DispatchMixin._auto, juiceBoxReceived, Command.do, _CommandMeta, QuitBox"]}
{"id": "C51", "title": "Commands outside their namespace are never run", "statement": "A responder is invoked only when the requested namespace is one of the command's namespaces and the normalized name matches; otherwise UnhandledCommand results and no responder code runs.", "quantifier": "all names, namespaces and commands", "why_tests_cant": "security claim over all inputs", "anchors": ["epsilon/juice.py: DispatchMixin.lookupFunction, _auto, dispatchCommand, normalizeCommand"]}
{"id": "C52", "title": "While TLS is being prepared packets are held back and flushed in order", "statement": "Between prepareTLS and startTLS no packet is written; on startTLS the transport switches first and then all held packets are written in order, none lost or duplicated; startTLS twice raises.", "quantifier": "all interleavings of sends, prepareTLS and startTLS", "why_tests_cant": "schedules", "anchors": ["epsilon/juice.py: Juice.sendPacket, prepareTLS, startTLS, TLSBox.sendTo"]}
{"id": "C53", "title": "After a protocol switch no byte is interpreted as Juice", "statement": "Once the protocol has been switched, every later byte goes to the inner protocol in order, exactly once, and no box is delivered; the switch happens at most once; a locked connection sends no packets and delivers no command needing an answer.", "quantifier": "all streams and chunkings after the switch", "why_tests_cant": "chunk boundaries relative to the switch point", "anchors": ["epsilon/juice.py: Juice._switchTo, _lock, rawDataReceived, _SwitchBox.sendTo, ProtocolSwitchCommand.do"]}
{"id": "C54", "title": "Version negotiation picks a supported version or refuses", "statement": "The version answered to Negotiate is one of the offered versions and one supported locally, the first such in the offered order; if none is supported IncompatibleVersions is raised; both ends end with the same version.", "quantifier": "all lists of offered versions", "why_tests_cant": "unbounded lists", "anchors": ["epsilon/juice.py: Juice.command_NEGOTIATE, renegotiateVersion, NegotiateBox.sendTo"]}
{"id": "C55", "title": "Calendar conversion is a bijection", "statement": "Times built from a datetime and read back with asDatetime/asNaiveDatetime/asStructTime give the same calendar fields for every valid date in years 1..9999.", "quantifier": "all valid (year, month, day, hour, minute, second, microsecond)", "why_tests_cant": "3 million days times all times of day; leap rules", "anchors": ["epsilon/extime.py: Time.fromDatetime, asDatetime, asNaiveDatetime, asStructTime, fromStructTime"]}
{"id": "C56", "title": "Timezones never change the instant", "statement": "fromDatetime(t.asDatetime(tz)) == t for every time with sub-day resolution and every fixed offset, whenever the local time is representable; equal instants in different zones compare equal.", "quantifier": "all instants, all offsets", "why_tests_cant": "boundary days and offsets", "anchors": ["epsilon/extime.py: fromDatetime, asDatetime, __eq__, FixedOffset"]}
{"id": "C57", "title": "ISO 8601 output parses back to the same time", "statement": "fromISO8601TimeAndDate(t.asISO8601TimeAndDate(delims, tz)) == t, with and without delimiters, for any offset (d == fromFu(d.asFu())).", "quantifier": "all times, all resolutions a constructor can produce, all offsets", "why_tests_cant": "all dates, precisions and offsets", "anchors": ["epsilon/extime.py: asISO8601TimeAndDate, fromISO8601TimeAndDate, _timedeltaToSignHrMin"]}
{"id": "C58", "title": "RFC 2822 output parses back to the same second", "statement": "fromRFC2822(t.asRFC2822(tz, includeDayOfWeek)) equals t truncated to whole seconds, for every time and fixed offset of whole minutes.", "quantifier": "all times, offsets and flag values", "why_tests_cant": "all dates and offsets", "anchors": ["epsilon/extime.py: asRFC2822, fromRFC2822, sanitizeStructTime"]}
{"id": "C59", "title": "POSIX timestamps round-trip", "statement": "fromPOSIXTimestamp(t.asPOSIXTimestamp()) == t to the microsecond.", "quantifier": "all times", "why_tests_cant": "floating point rounding differs for every input", "anchors": ["epsilon/extime.py: asPOSIXTimestamp, fromPOSIXTimestamp, _timedeltaToSeconds"]}
{"id": "C60", "title": "Explicit timezone offsets are honoured with their sign", "statement": "A parsed ISO 8601 string with offset +hh:mm or -hh:mm denotes the instant local time minus the signed offset.", "quantifier": "all offsets", "why_tests_cant": "sign and minute combinations", "anchors": ["epsilon/extime.py: fromISO8601TimeAndDate calculateTimezone, FixedOffset.__init__"]}
{"id": "C61", "title": "The ISO parser never returns a wrong date", "statement": "Whenever the ISO parser returns, the fields of the result read back in the same zone equal the fields written in the string (calendar, week or ordinal form alike), and out-of-range fields raise ValueError rather than being normalized.", "quantifier": "all strings", "why_tests_cant": "all strings", "anchors": ["epsilon/extime.py: fromISO8601TimeAndDate"]}
{"id": "C62", "title": "ISO week dates denote the right day", "statement": "For every year, week and weekday, the parsed day is the one whose ISO calendar triple is (year, week, weekday), and week 53 of a 52-week year is rejected.", "quantifier": "all years 1..9999, weeks, weekdays", "why_tests_cant": "all years", "anchors": ["epsilon/extime.py: calculateDtime"]}
{"id": "C63", "title": "sanitizeStructTime always returns a valid time", "statement": "For every tuple the sanitized tuple denotes an existing calendar time, is unchanged when already valid, and each field is the closest in-range value.", "quantifier": "all integer tuples", "why_tests_cant": "unbounded inputs", "anchors": ["epsilon/extime.py: sanitizeStructTime"]}
{"id": "C64", "title": "Containment is interval inclusion", "statement": "b in a holds iff the half-open period of b lies within that of a; it is reflexive, transitive and antisymmetric up to equal periods.", "quantifier": "all pairs and triples of times", "why_tests_cant": "order-theoretic law", "anchors": ["epsilon/extime.py: Time.__contains__"]}
{"id": "C65", "title": "Time arithmetic laws", "statement": "(t + d) - t == d, (t + d) - d == t, t - u is the exact difference of the instants, and results have the resolution of an instant; overflow raises OverflowError rather than wrapping.", "quantifier": "all times and timedeltas", "why_tests_cant": "algebraic laws over all values", "anchors": ["epsilon/extime.py: __add__, __sub__"]}
{"id": "C66", "title": "getBounds brackets every matching instant", "statement": "getBounds(tz) returns a pair (lo, hi) with lo <= t and t + resolution <= hi such that any instant within the period, in UTC or in tz, lies between them.", "quantifier": "all times and offsets", "why_tests_cant": "all values", "anchors": ["epsilon/extime.py: getBounds"]}
{"id": "C67", "title": "Human-entered clock times resolve to the next occurrence", "statement": "fromHumanly of hh:mm (with optional am/pm) returns the first instant not before the current minute at which the local clock shows that time, for every 'now' and offset; every 12-hour time is accepted.", "quantifier": "all times of day, all nows, all offsets", "why_tests_cant": "wrap-around at midnight for all combinations", "anchors": ["epsilon/extime.py: _fromTime, fromHumanly"]}
{"id": "C68", "title": "Human-entered weekdays resolve to a day 1..7 days ahead", "statement": "fromHumanly of a weekday name (any case, optional next/this) returns the start of a day with that weekday, strictly after today and at most 7 days ahead.", "quantifier": "all weekdays, all nows", "why_tests_cant": "all dates", "anchors": ["epsilon/extime.py: _fromWeekday"]}
{"id": "C69", "title": "oneDay is the day containing the time", "statement": "t.oneDay() is midnight UTC of t's day with resolution one day, contains every instant of that day, and is idempotent.", "quantifier": "all times", "why_tests_cant": "all values", "anchors": ["epsilon/extime.py: oneDay, isAllDay, isTimezoneDependent"]}
{"id": "C70", "title": "DelayedCall fires when its last reset/delay says", "statement": "After reset(s) the call's time is now + s; delay(d) adds d to the scheduled time; the scheduled time reported never silently differs from the time the reactor will act on by a negative delay; operations on a cancelled or called DelayedCall raise and change nothing.", "quantifier": "all histories of reset/delay/cancel", "why_tests_cant": "history property", "anchors": ["epsilon/hotfixes/delayedcall_seconds.py: DelayedCall"]}
{"id": "C71", "title": "TimeoutMixin keeps at most one pending timeout", "statement": "In every history of setTimeout, resetTimeout and timer firing there is at most one pending timeout call, there is exactly one iff a timeout is set and has not fired, and it fires timeOut seconds after the last set/reset.", "quantifier": "all histories", "why_tests_cant": "history and timing", "anchors": ["epsilon/hotfixes/timeoutmixin_calllater.py: TimeoutMixin"]}
{"id": "C72", "title": "Clock.callLater returns its own call and keeps the queue sorted", "statement": "callLater returns the DelayedCall it scheduled, and the queue stays a sorted permutation of all pending calls.", "quantifier": "all histories of callLater with any times", "why_tests_cant": "history property", "anchors": ["epsilon/hotfixes/internet_task_clock.py: callLater"]}
{"id": "C73", "title": "FilePath.child never leaves the directory", "statement": "For every absolute base path and every string, child either raises InsecurePath or returns the base itself or a path exactly one component below it.", "quantifier": "all strings", "why_tests_cant": "path traversal attacks range over all strings", "anchors": ["epsilon/hotfixes/filepath_copyTo.py: FilePath.child"]}
{"id": "C74", "title": "FilePath.preauthChild never leaves the directory", "statement": "preauthChild either raises InsecurePath or returns a path at or below the base directory.", "quantifier": "all strings", "why_tests_cant": "path traversal attacks range over all strings", "anchors": ["epsilon/hotfixes/filepath_copyTo.py: FilePath.preauthChild"]}
{"id": "C75", "title": "FilePath.copyTo copies files and trees exactly", "statement": "After copyTo the destination holds exactly the bytes of the source file, for every size relative to the chunk size, and for directories a copy of the whole tree, leaving the source unchanged.", "quantifier": "all file contents and trees, all chunk sizes", "why_tests_cant": "sizes at, below and above chunk multiples; arbitrary trees", "anchors": ["epsilon/hotfixes/filepath_copyTo.py: FilePath.copyTo"]}
{"id": "C76", "title": "FilePath.setContent is atomic across crashes", "statement": "If the process stops at any point during setContent, and no call to the operating system fails, the file holds either its complete old content or the complete new content, and nothing else changes but the sibling named by the extension (a non-empty extension without a slash). When setContent returns, the content is the new one and the sibling is gone.", "quantifier": "all contents, all crash points", "why_tests_cant": "crash points", "anchors": ["epsilon/hotfixes/filepath_copyTo.py: FilePath.setContent"]}
{"id": "C77", "title": "deferredGenerator delivers the generator's outcome exactly once", "statement": "The Deferred returned for a generator fires exactly once, with the last plain value the generator yielded (None when its last yield was a wait) or the exception it raised, whatever mixture of already-fired and later-fired Deferreds it waits on; the generator is resumed once per wait.", "quantifier": "all generators and all firing schedules", "why_tests_cant": "schedules", "anchors": ["epsilon/hotfixes/deferredgenerator_tfailure.py: _deferGenerator, getResult"]}
{"id": "C78", "title": "failUnlessWarns restores the warning machinery", "statement": "Whatever the function under test does, including raising, the global warn_explicit hook is afterwards the original one, and if the function itself returns without replacing that hook, the assertion passes iff at least one warning was emitted, all have the expected message and category, and the expected file name begins with the file name of the first one.", "quantifier": "all functions and warning sequences", "why_tests_cant": "all behaviours of the callee", "anchors": ["epsilon/hotfixes/trial_assertwarns.py: failUnlessWarns"]}
{"id": "C79", "title": "A benchmark process notifies completion exactly once", "statement": "The whenFinished Deferred of BasicProcess fires exactly once, when the process ends, with all output collected in order on success, TimeoutError if it had timed out, ProcessDied otherwise.", "quantifier": "all histories of output, timeouts and exit reasons", "why_tests_cant": "schedules", "anchors": ["epsilon/scripts/benchmark.py: BasicProcess"]}
{"id": "C80", "title": "The current working device is the one of the longest matching mount point", "statement": "discoverCurrentWorkingDevice returns the device of the mount point that contains the working directory and is deepest.", "quantifier": "all mount tables and working directories", "why_tests_cant": "all tables", "anchors": ["epsilon/scripts/benchmark.py: discoverCurrentWorkingDevice"]}
{"id": "C81", "title": "Disk statistics lines are parsed field for field", "statement": "parseDiskStatLine applied to a rendered statistics line returns the device name and exactly the rendered counters, for both 7-field and 14-field lines.", "quantifier": "all device names and counters", "why_tests_cant": "unbounded integers", "anchors": ["epsilon/scripts/benchmark.py: parseDiskStatLine"]}
{"id": "C82", "title": "SignalService restores the previous signal handlers", "statement": "After startService followed by stopService the handler of every signal is what it was before, for every signal map.", "quantifier": "all signal maps and prior handlers", "why_tests_cant": "all maps", "anchors": ["epsilon/spewer.py: SignalService"]}
{"id": "C83", "title": "autosetup lists every package and data file once", "statement": "The packages found are exactly the directories, not below a hidden directory, holding __init__.py or a plugins directory; data files are exactly the files below top-level packages, not below a hidden directory, that are not Python files or are outside packages, except dropin.cache; each is listed once.", "quantifier": "all directory trees", "why_tests_cant": "arbitrary trees", "anchors": ["epsilon/setuphelper.py: autosetup"]}
{"id": "C84", "title": "A spawned process keeps its own PYTHONPATH entries", "statement": "spawnProcess never modifies the caller's environment dictionary; the child's PYTHONPATH contains every directory of the requested packages outside the Python library, followed by the caller's entries in order.", "quantifier": "all environments and package lists", "why_tests_cant": "all inputs", "anchors": ["epsilon/process.py: spawnProcess"]}
{"id": "C85", "title": "A new modal instance starts in the initial mode", "statement": "A new instance of a class built with ModalType has the class's initialMode (own or inherited) as its current mode, in the attribute the class names as its mode attribute.", "quantifier": "all class bodies, base classes and mode attribute names", "why_tests_cant": "all inputs", "anchors": ["epsilon/modal.py: ModalType.__new__, _getInheritedAttribute"]}
{"id": "C86", "title": "Unicode arguments survive the wire", "statement": "A Unicode argument decodes, on the receiving side, to the text that was passed on the sending side, for every text.", "quantifier": "all texts", "why_tests_cant": "Whether decoding works depends on the type in which the received box hands the value over, for every text; a test exercises one text with one type.", "anchors": ["epsilon/juice.py:516-523", "epsilon/juice.py:285-308"]}
{"id": "C87", "title": "A protocol that takes over a Juice connection is connected exactly once", "statement": "When a Juice connection is switched to another protocol, that protocol's makeConnection is called exactly once, before it gets any data, whatever box caused the switch and however the bytes were cut.", "quantifier": "all streams, chunkings and switching boxes, with and without a body", "why_tests_cant": "the switch can be triggered by any box at any chunk boundary", "anchors": ["epsilon/juice.py: Juice._switchTo, rawDataReceived"]}
{"id": "C88", "title": "struct_time conversions invert each other", "statement": "fromStructTime(t.asStructTime(tz), tz) is t truncated to whole seconds, with a resolution of one second, for UTC and any fixed offset of whole seconds; a tuple that is no calendar time raises ValueError.", "quantifier": "all times, all offsets, all tuples", "why_tests_cant": "Unit tests try a handful of dates and one zone; month ends, leap days and year ends with offsets across them are a product space.", "anchors": ["epsilon/extime.py:573-590", "epsilon/extime.py:800-810"]}
{"id": "C89", "title": "Times are ordered by the start of their period", "statement": "a < b, sorting, min and max of Times follow the instants at which their periods start, consistently with ==.", "quantifier": "all pairs and triples of times", "why_tests_cant": "The order must be total and transitive and agree with equality for all values; a test compares a few.", "anchors": ["epsilon/extime.py:104-160", "epsilon/extime.py:936-947"]}
{"id": "C90", "title": "A parsed ISO time is as precise as its text", "statement": "Whenever the ISO parser returns, the resolution of the Time is the length of the smallest unit written: the year (365 or 366 days), that month (28 to 31 days), the week, the day, the hour, the minute, the second, or the last digit of the fraction (at least one microsecond).", "quantifier": "all strings, all tzinfo", "why_tests_cant": "Month and year lengths depend on the date; a test covers a few.", "anchors": ["epsilon/extime.py: fromISO8601TimeAndDate determineResolution"]}
{"id": "C91", "title": "POSIX timestamps keep the order of times", "statement": "If t <= u then t.asPOSIXTimestamp() <= u.asPOSIXTimestamp(), for all times; for times less than 2**33 seconds from 1970 different times have different timestamps.", "quantifier": "all pairs of times", "why_tests_cant": "the rounding of floats must be monotone for every pair", "anchors": ["epsilon/extime.py: asPOSIXTimestamp, _timedeltaToSeconds"]}
{"id": "C92", "title": "RFC 1123 output names the UTC second", "statement": "asRFC1123() returns 'Ddd, dd Mmm yyyy hh:mm:ss GMT' with the UTC date and time of the time, seconds truncated.", "quantifier": "all times", "why_tests_cant": "rounding in the float timestamp depends on every input", "anchors": ["epsilon/extime.py: asRFC1123, asPOSIXTimestamp"]}
{"id": "C93", "title": "A well-formed RFC 2822 date is read as its instant", "statement": "fromRFC2822 of a text that writes an existing date (optional day name, month name in any case, hh:mm or hh:mm:ss, zone as +hhmm, -hhmm or a name, none meaning UTC, any white space between; a year below 100 meaning one of 1969 to 2068) returns that instant with a resolution of one second.", "quantifier": "all dates, zones, layouts and letter cases", "why_tests_cant": "the texts are unbounded in number", "anchors": ["epsilon/extime.py: fromRFC2822, sanitizeStructTime, FixedOffset"]}
{"id": "C94", "title": "Reading an RFC 2822 date fails only with ValueError", "statement": "fromRFC2822 of any text returns a time or raises ValueError.", "quantifier": "all texts", "why_tests_cant": "all strings", "anchors": ["epsilon/extime.py: fromRFC2822"]}
{"id": "C95", "title": "Text typed by a person is accepted, or refused with ValueError", "statement": "Time.fromHumanly, for every text, zone and current time, either returns a time or raises ValueError; it accepts exactly the documented forms (weekday with optional next/this; today, tomorrow, yesterday; hh:mm with optional am/pm; noon, midnight, now).", "quantifier": "all texts, zones and current times", "why_tests_cant": "the set of texts is infinite and includes non-ASCII letters the case-insensitive patterns accept", "anchors": ["epsilon/extime.py: fromHumanly, humanlyPatterns"]}
{"id": "C96", "title": "today, tomorrow and yesterday are UTC days", "statement": "Time.fromHumanly of 'today', 'tomorrow' or 'yesterday' (any case, white space around) returns the UTC day that holds the current time, the next or the previous one, with a resolution of a day, whatever the time zone given.", "quantifier": "all current times and zones", "why_tests_cant": "all times of day and calendar boundaries", "anchors": ["epsilon/extime.py: _fromTodayOrTomorrow, fromHumanly"]}
{"id": "C97", "title": "noon and midnight are the next ones; now is now", "statement": "Time.fromHumanly of 'noon' or 'midnight' returns the first minute, not before the current one, at which the local clock shows 12:00 or 0:00; 'now' returns the current time.", "quantifier": "all current times and zones", "why_tests_cant": "wrap-around at midnight for all offsets", "anchors": ["epsilon/extime.py: _fromNoonOrMidnight, _fromNow, fromHumanly"]}
{"id": "C98", "title": "Letter case and surrounding white space do not matter", "statement": "Time.fromHumanly gives the same result (value or exception) for an ASCII text whatever the case of its letters, and for any text whatever white space surrounds it.", "quantifier": "all texts, zones and current times", "why_tests_cant": "infinitely many texts", "anchors": ["epsilon/extime.py: fromHumanly, humanlyPatterns"]}
{"id": "C99", "title": "Texts written for people tell times apart", "statement": "If t.asHumanly and u.asHumanly give the same text for the same zone, current time and precision, then t and u have the same local date, are both all-day or neither, and, if neither, have the same local hour and minute (and second, when the precision is seconds).", "quantifier": "all times, zones, current times and precisions", "why_tests_cant": "pairs of arbitrary times", "anchors": ["epsilon/extime.py: asHumanly"]}
{"id": "C100", "title": "The text of a time later today reads back", "statement": "For a time later in the current local day that is not all-day, fromHumanly(t.asHumanly(tz, now), tz, now) is the minute that holds t.", "quantifier": "all times, zones and current times", "why_tests_cant": "all times of day and offsets", "anchors": ["epsilon/extime.py: asHumanly, fromHumanly"]}
{"id": "C101", "title": "The test clock runs due calls in order, also after their times change", "statement": "Whatever calls were made, cancelled, reset or delayed, Clock runs, when asked, the pending call with the earliest time if that time has come, and none only if none is due.", "quantifier": "all histories of callLater, reset, delay, cancel and advance", "why_tests_cant": "depends on the order of arbitrary changes of times", "anchors": ["epsilon/hotfixes/internet_task_clock.py: callLater"]}
{"id": "C102", "title": "FilePath: parent, basename and temporary siblings stay in the same directory", "statement": "For every absolute path, child(basename) of its parent is the path itself; the root is its own parent; temporarySibling names an entry of the same directory, different from the path.", "quantifier": "all absolute paths and all random names", "why_tests_cant": "all path shapes, including roots with two slashes", "anchors": ["epsilon/hotfixes/filepath_copyTo.py: FilePath.parent, basename, temporarySibling"]}
{"id": "C103", "title": "FilePath.remove deletes the tree and nothing else", "statement": "remove never changes anything outside the path, whatever fails and wherever the process stops, and what is left of the tree is as it was; when it returns normally nothing exists at or below the path; if nothing fails it returns normally for every existing path but the root.", "quantifier": "all trees, all failures and crash points", "why_tests_cant": "arbitrary trees and failure points", "anchors": ["epsilon/hotfixes/filepath_copyTo.py: FilePath.remove"]}
{"id": "C104", "title": "FilePath.walk yields every path once, directories first", "statement": "walk yields the path itself and every existing path below it, each once, and each directory before its entries.", "quantifier": "all trees", "why_tests_cant": "arbitrary trees", "anchors": ["epsilon/hotfixes/filepath_copyTo.py: FilePath.walk"]}
{"id": "C105", "title": "FilePath.moveTo moves the whole tree or nothing", "statement": "moveTo succeeds when the destination does not exist and its parent directory does. Whatever fails and wherever the process stops, the tree is entirely at the old or entirely at the new place and nothing else changes.", "quantifier": "all trees, all failures and crash points, one or several file systems", "why_tests_cant": "crash points; several file systems", "anchors": ["epsilon/hotfixes/filepath_copyTo.py: FilePath.moveTo"]}
{"id": "C106", "title": "FilePath.setContent never reports success for content it did not store", "statement": "Even when calls to the operating system fail (for example because the disk is full), setContent returning normally means that the file has the new content.", "quantifier": "all contents, all failures", "why_tests_cant": "which calls fail, buffering", "anchors": ["epsilon/hotfixes/filepath_copyTo.py: FilePath.setContent"]}
{"id": "C107", "title": "Timing of a benchmark is started and stopped by the child", "statement": "A BenchmarkProcess starts timing when its child writes the byte 0 on the back channel, stops it on the byte 1 and kills the child on any other byte; what the child writes elsewhere is collected as output.", "quantifier": "all bytes, in all chunks, at all times", "why_tests_cant": "all byte sequences", "anchors": ["epsilon/scripts/benchmark.py: BenchmarkProcess.childDataReceived"]}
{"id": "C108", "title": "Every benchmark run is reported", "statement": "Each run of a benchmark, however it ends, is reported; the report says error unless the status was 0 and nothing was written to standard error, and timeout exactly if it timed out.", "quantifier": "all outcomes", "why_tests_cant": "all outcomes and outputs", "anchors": ["epsilon/scripts/benchmark.py: _bench"]}
{"id": "C109", "title": "Uninstalling a Tracer ends tracing", "statement": "After Tracer.uninstall, or a second toggle, neither this thread nor threads started later are traced, and nothing is raised.", "quantifier": "all sequences of install, uninstall and toggle", "why_tests_cant": "all sequences", "anchors": ["epsilon/spewer.py: Tracer.uninstall", "epsilon/spewer.py: Tracer.toggle"]}
{"id": "C110", "title": "Spewer indents by call depth", "statement": "For every run of a traced program the lines Spewer prints for a call, its exceptions and its return are indented by the number of calls in progress.", "quantifier": "all nestings of calls and exceptions", "why_tests_cant": "all program runs", "anchors": ["epsilon/spewer.py: Spewer"]}
{"id": "C111", "title": "Spewer shows all parameters of a call", "statement": "extractArgs returns exactly the parameters of the function called, each with its value.", "quantifier": "all signatures and local variables", "why_tests_cant": "all signatures", "anchors": ["epsilon/spewer.py: extractArgs"]}
{"id": "C112", "title": "Connected endpoints never confuse each other", "statement": "When two endpoints are joined by FIFO byte pipes that cut the stream arbitrarily and the applications use no reserved keys, each endpoint receives exactly the boxes the other wrote, in order, and receiving one raises only what the dispatch of an unknown command raises, or after the connection was lost; in particular no answer is ever unexpected.", "quantifier": "all schedules, all chunkings, all command sequences in both directions", "why_tests_cant": "unbounded schedules", "anchors": ["epsilon/juice.py: juiceBoxReceived, Juice.dataReceived", "epsilon/liner.py: dataReceived"]}
{"id": "C113", "title": "Connected endpoints lose no answer", "statement": "When both endpoints have received all the other wrote, nothing raised, no TLS negotiation or protocol switch was begun, the connection was not lost and every command run has finished with a box or an error, every request that asked for an answer has had its Deferred fired with an answer or an error.", "quantifier": "all schedules, all chunkings, all command sequences in both directions", "why_tests_cant": "unbounded schedules", "anchors": ["epsilon/juice.py: sendBoxCommand, juiceBoxReceived, Juice.dataReceived"]}
{"id": "C114", "title": "FilePath answers questions about the file as it is", "statement": "exists, isdir, isfile, islink, getsize, getmtime, getctime and getatime tell what is the case when they are called, however the file system has changed since earlier calls on the same object.", "quantifier": "all histories of calls and of changes to the file system", "why_tests_cant": "unbounded histories", "anchors": ["epsilon/hotfixes/filepath_copyTo.py: restat, getsize, exists, isdir, isfile, islink, __getstate__"]}
{"id": "C115", "title": "A path that must be created never touches an existing file", "statement": "Opening a FilePath after requireCreate (as temporarySibling does) creates a new empty file where nothing was, or raises and changes nothing; of any number of concurrent calls at most one succeeds.", "quantifier": "all file systems, modes and interleavings", "why_tests_cant": "all interleavings with other processes", "anchors": ["epsilon/hotfixes/filepath_copyTo.py: open, create, requireCreate, temporarySibling"]}
{"id": "C116", "title": "Searches return the first path that exists", "statement": "siblingExtensionSearch and childSearchPreauth return the path of the first extension or child for which a path exists, in the order given, and None when there is none.", "quantifier": "all file systems, paths, lists of extensions and children", "why_tests_cant": "unbounded inputs", "anchors": ["epsilon/hotfixes/filepath_copyTo.py: siblingExtensionSearch, childSearchPreauth"]}
{"id": "C117", "title": "An attribute defined by a one-use descriptor does what its functions say and nothing else", "statement": "Reading, assigning and deleting an attribute defined by `class x(attribute)` calls exactly the function `get`, `set` or `delete` given for it, with the object (and the value), and gives its result or its exception; where no function was given the access raises AttributeError and changes nothing. What the instance's own dictionary holds under the name is never seen. Reading it on the class gives the descriptor. The attributes made by requiredAttribute are such attributes.", "quantifier": "every class hierarchy, attribute name, set of given functions, instance and state", "why_tests_cant": "classes, functions and states are unbounded; tests try one class with a counter", "anchors": ["epsilon/descriptor.py:12-20", "epsilon/descriptor.py:22-93", "epsilon/descriptor.py:134-144"]}
{"id": "C118", "title": "The loopback connection delivers in order, once, and never inside a write", "statement": "With the hotfix of loopbackAsync installed, for any two protocols and any use of their transports: what one side has received is always an initial part of what the other wrote, in order and each write once; write and loseConnection never call dataReceived before they return, also when called from dataReceived; the Deferred the two queues share is never called back twice and at most one further turn is asked of the reactor; while the connection lasts something is still scheduled unless everything written has been received; connectionLost is called once on each side, only after someone called loseConnection, and everything the first one to call it had written by then has been received by the other.", "quantifier": "every pair of protocols, every interleaving of reactor turns and outside writes", "why_tests_cant": "schedules and protocols are unbounded; a test runs one conversation", "anchors": ["epsilon/hotfixes/loopbackasync_reentrancy.py:8-21"]}
{"id": "C119", "title": "Whoever asks for a protocol switch learns its outcome, once", "statement": "When ProtocolSwitchCommand.do has returned, no further Juice packet is written on the connection. The factory given to it is asked for a protocol when the answer arrives, and that protocol takes over the connection; or it is told clientConnectionFailed, and the connection is closed, when an error arrives, the connection is lost or the answer cannot be read. Never both, never twice; when the connection is gone one of them has happened. The protocol that took over, and its factory, are told once of the loss of the connection.", "quantifier": "every history of the connection: any other requests, answers, responders, TLS, any outcome of buildProtocol", "why_tests_cant": "the order of answers, losses and other traffic is unbounded", "anchors": ["epsilon/juice.py:691-714", "epsilon/juice.py:655-675", "epsilon/juice.py:868-878"]}
{"id": "C120", "title": "A benchmark report states what changed between two snapshots", "statement": "formatResults returns one juice box; parsed, it gives the name, host, versions, elapsed time, error and timeout passed in, the growth of the directory, and the growth of each I/O counter between the two snapshots, or no such counter where there are no statistics after; snapshots whose statistics cannot be compared give AttributeError.", "quantifier": "all names, snapshots and flags", "why_tests_cant": "unbounded integers and all texts", "anchors": ["epsilon/scripts/benchmark.py: formatResults, Results, Change"]}
{"id": "C121", "title": "The file of reports holds every report in order", "statement": "After any number of reports were appended to the file 'output', parsing it gives one box for each, in order, with what was reported.", "quantifier": "all sequences of reports", "why_tests_cant": "sequences of any length", "anchors": ["epsilon/scripts/benchmark.py: reportResults, formatResults"]}
{"id": "C122", "title": "The disk of a benchmark is the disk of its partition", "statement": "The disk whose statistics are reported is the one that holds the partition of the working directory.", "quantifier": "all device names", "why_tests_cant": "all names", "anchors": ["epsilon/scripts/benchmark.py: BenchmarkProcess.__init__"]}
{"id": "C123", "title": "A command is a call of the responder at the other end", "statement": "When two endpoints are joined by FIFO byte pipes that cut the stream arbitrarily, a command whose names are usable (distinct, in normal form, not reserved) is given arguments of the declared classes and its Deferred fires, then either the connection was lost, or the peer ran that command's responder once, with those arguments (whatever the spelling of their names), None for the optional ones left out, and the extra arguments of its own end; and the caller gets what that responder returned, with the extra arguments of the caller's end, or an exception of the class declared for what it raised, with its text, or an UnhandledRemoteJuiceError if it is not declared (likewise for the exception of a response that lacks a value). Such arguments and results are always accepted for sending, and when nothing is left to do every call has fired.", "quantifier": "all schedules, all chunkings, all command declarations, all argument values, all responders", "why_tests_cant": "unbounded schedules and unbounded argument values", "anchors": ["epsilon/juice.py:606-678", "epsilon/juice.py:215-231", "epsilon/juice.py: juiceBoxReceived, Juice.dataReceived"]}
{"id": "C124", "title": "asplode unpacks every file of a project", "statement": "Every line of the input, with the names of the project and the date put in for each placeholder from the left, either names a file (the text after the first '###file:', up to the second, without the white space around it) or is written to the file named last. Whatever the input and whichever directories exist, each named file ends up with exactly the lines after its last header, in order, and no other file is touched; a file is closed before the next is opened; if an operation fails nothing is done after it. Input that does not begin with a header raises AttributeError before anything is done.", "quantifier": "every list of lines, project name, date at each line, and failure of an operation", "why_tests_cant": "unbounded input; failures at every point", "anchors": ["epsilon/asplode.py:9-28"]}
{"id": "C125", "title": "Plugins are looked for under sys.path, in order", "statement": "For a dotted package name without slashes pluginPackagePaths gives, for each entry of sys.path in order that has no __init__.py for the package, the absolute normalised path of the package under that entry (relative entries under the working directory), whatever the spelling of the entry; no path outside the entries of sys.path is ever given.", "quantifier": "every sys.path, working directory, name and file system", "why_tests_cant": "unbounded paths and spellings", "anchors": ["epsilon/hotfixes/plugin_package_paths.py:9-37"]}
{"id": "C126", "title": "EncodedString, Path and Base64Binary arguments survive the wire", "statement": "An EncodedString, Path or Base64Binary argument of a command is decoded by the peer as the value that was passed, for every value; a command with such an argument can be received.", "quantifier": "all values of these classes, all encodings, all argument lists", "why_tests_cant": "whether a class ever decodes what arrives has to be shown for every text and every list of arguments", "anchors": ["epsilon/juice.py: EncodedString, Path, Base64Binary, stringsToObjects"]}
{"id": "C127", "title": "FilePath.remove removes a link, not what it leads to", "statement": "Removing a path leaves everything alone that is not at or below it, also when the path is a symbolic link, or there are links below it; when it ends normally nothing is left at or below the path, and when nothing fails it ends normally.", "quantifier": "all file systems with symbolic links, all failures and crash points", "why_tests_cant": "arbitrary trees with arbitrary links, including cycles", "anchors": ["epsilon/hotfixes/filepath_copyTo.py:250-257"]}
{"id": "C128", "title": "FilePath.copyTo writes only at and below its destination, also where there are links", "statement": "A copy changes nothing that is not at or below the destination, whatever symbolic links there are in the source and the destination, whatever fails and wherever the process stops.", "quantifier": "all file systems with symbolic links, all failures and crash points", "why_tests_cant": "arbitrary trees with arbitrary links, including cycles", "anchors": ["epsilon/hotfixes/filepath_copyTo.py:335-367"]}
{"id": "C129", "title": "FilePath.walk ends and yields each place once, also where there are links", "statement": "walk of a path ends and yields each file, directory and link at and below the path once, directories before what is in them.", "quantifier": "all file systems with symbolic links", "why_tests_cant": "arbitrary trees with arbitrary links, including cycles", "anchors": ["epsilon/hotfixes/filepath_copyTo.py:326-331"]}
{"id": "C130", "title": "A copy holds what is seen through the links", "statement": "When nothing fails, copying a path to a new name in a directory ends normally if the tree seen at the path through its symbolic links is finite, has only files and directories and does not hold the destination: the destination then holds under every name what is seen under that name in the source, each link having become a copy of the file or directory it leads to, and nothing else has changed.", "quantifier": "all file systems with symbolic links, all sizes of reads", "why_tests_cant": "arbitrary trees with arbitrary links", "anchors": ["epsilon/hotfixes/filepath_copyTo.py:335-367"]}
{"id": "C131", "title": "A tracer is told of what happens, and skip stops it", "statement": "An installed Tracer is told of every call the program makes, in order, and of the lines, exceptions and return of each call, unless the method told of something in that call answered skip, after which it is told no more of that call (but of the calls made from it); where trace_CALL returns a function, that function is told of the rest of the call. Nothing is told that does not happen. If a method raises, tracing ends.", "quantifier": "all programs, all subclasses of Tracer with any state and answers", "why_tests_cant": "arbitrary programs and arbitrary tracers", "anchors": ["epsilon/spewer.py:33-52"]}
{"id": "C132", "title": "FilePath.makedirs makes what is missing and nothing else", "statement": "Whatever fails and wherever the process stops, makedirs has changed nothing but that there are directories at places leading to the path where nothing was. When it ends normally nothing was at the path before, and the path and everything above it are directories. When nothing fails by itself, it ends normally exactly if nothing is at the path and everything on the way to it is a directory or missing; otherwise it raises OSError and changes nothing. createDirectory makes the one directory and none above it.", "quantifier": "all file systems, all absolute paths, all failures and crash points", "why_tests_cant": "arbitrary trees, every crash point", "anchors": ["epsilon/hotfixes/filepath_copyTo.py:259-260"]}
{"id": "C133", "title": "FilePath.touch leaves what is there as it is", "statement": "Whatever fails and wherever the process stops, touch has changed nothing, or has made an empty file at the path where nothing was. When it ends normally something is at the path. When nothing fails by itself it ends normally where there is something, and where nothing is but a directory above. On a path that is to be created always it raises AssertionError and changes nothing.", "quantifier": "all file systems, all absolute paths, all failures and crash points", "why_tests_cant": "arbitrary trees, every crash point", "anchors": ["epsilon/hotfixes/filepath_copyTo.py:243-248", "epsilon/hotfixes/filepath_copyTo.py:151-155"]}
{"id": "C134", "title": "FilePath.getContent changes nothing and gives the content", "statement": "getContent changes nothing on disk, and when it returns, it returns the content of the file at the path; it returns if a file is there and nothing fails. After a setContent that stopped anywhere, it gives the content set or the content before; and the content set if setContent ended normally.", "quantifier": "all file systems, all absolute paths, all failures and crash points", "why_tests_cant": "arbitrary trees, every crash point", "anchors": ["epsilon/hotfixes/filepath_copyTo.py:286-287", "epsilon/hotfixes/filepath_copyTo.py:151-155"]}
{"id": "C135", "title": "FilePath.globChildren gives the children that match", "statement": "For a pattern that is one name, globChildren of a directory gives exactly its children whose names match the pattern (those beginning with a dot only if the pattern does), each once.", "quantifier": "all file systems, all directories, all patterns", "why_tests_cant": "arbitrary names of directories, arbitrary patterns", "anchors": ["epsilon/hotfixes/filepath_copyTo.py:262-270"]}
{"id": "C136", "title": "start() and stop() measure exactly the script's work between them", "statement": "For a benchmark script with any number of calls of start() and stop() run by the measuring parent, and every schedule of the two processes: what happens is, in this order, the script's work, and for every call that it is called, that the parent takes the snapshot, and that the call returns. So between the two snapshots lies exactly the work between the calls. A call raises only if the parent has gone; the script can always be finished, unless it was killed or the parent has gone.", "quantifier": "all scripts, all schedules of the two processes, all times of death", "why_tests_cant": "arbitrary interleavings over two pipes", "anchors": ["epsilon/scripts/benchmark.py:532-561", "epsilon/scripts/benchmark.py:233-234", "epsilon/scripts/benchmark.py:256-277"]}
{"id": "C137", "title": "pluginModules gives the modules that can be imported", "statement": "Going through pluginModules gives the modules of the names that can be imported, in order; each name is looked up once; whoever stops early makes no further lookups.", "quantifier": "all lists of names, all results of importing them", "why_tests_cant": "arbitrary modules with arbitrary failures", "anchors": ["epsilon/setuphelper.py:8-19"]}
{"id": "C138", "title": "regeneratePluginCache asks for the plugins of every package", "statement": "Without the install command nothing happens. With it the directory installed into comes first on sys.path, and the plugins of every package whose module of plugins can be imported are asked for once, in order, up to the first for which that raises, which is raised. (Where importing raises a ValueError without arguments see C137.)", "quantifier": "all distributions, all results of importing and of getPlugins", "why_tests_cant": "arbitrary packages with arbitrary failures", "anchors": ["epsilon/setuphelper.py:21-34"]}
{"id": "C139", "title": "certcreate makes the certificate asked for", "statement": "When certcreate returns, the certificate was made with the serial number given and for a subject whose fields are the seven options given and no others, and the file holds its PEM. An option that is missing or a serial number that is no number raises before any key is made or file touched.", "quantifier": "all options, all failures", "why_tests_cant": "arbitrary options", "anchors": ["epsilon/scripts/certcreate.py:29-63"]}
{"id": "C140", "title": "certcreate leaves a whole certificate or the old file", "statement": "Whatever fails and wherever the process stops, the file named holds what it did before, or a whole certificate; nothing else on disk changes.", "quantifier": "all file systems, all failures and crash points", "why_tests_cant": "every crash point", "anchors": ["epsilon/scripts/certcreate.py:50-63"]}
{"id": "C141", "title": "An installed hotfix is seen by everyone", "statement": "Installing a hotfix ends normally; then what it brings is seen by the instances of Twisted's class, whenever made, and of every class derived from it that does not define the same itself, and under Twisted's names, also by modules that had imported them; the class keeps the name of its module; nothing else changes.", "quantifier": "all class hierarchies, all contents of the fix, all nine hotfixes", "why_tests_cant": "arbitrary hierarchies and instances", "anchors": ["epsilon/hotfixes/filepath_copyTo.py:398-404", "epsilon/hotfixes/delayedcall_seconds.py:155-160", "epsilon/hotfixes/timeoutmixin_calllater.py:54-60", "epsilon/hotfixes/proto_helpers_stringtransport.py:10-11", "epsilon/hotfixes/internet_task_clock.py:34-38", "epsilon/hotfixes/trial_assertwarns.py:59-61", "epsilon/hotfixes/deferredgenerator_tfailure.py:54-59", "epsilon/hotfixes/plugin_package_paths.py:40-42", "epsilon/hotfixes/loopbackasync_reentrancy.py:24-26"]}
{"id": "C142", "title": "A command that fails in a transaction leaves no trace", "statement": "If a command's dispatch is wrapped in a transaction and the peer is answered with an error, the store is as it was before the command; wrapping changes neither the answer nor the effects of commands that succeed.", "quantifier": "all stores, responders, boxes and errors", "why_tests_cant": "arbitrary effects before arbitrary failures", "anchors": ["epsilon/juice.py:186-192", "epsilon/juice.py:203-241", "epsilon/juice.py:266-270"]}
{"id": "C143", "title": "benchmark runs the script that is named", "statement": "The script a benchmark process runs is the one named on the command line, as seen from the directory benchmark was started in; it gets the remaining arguments, and descriptors 0 to 4 as promised.", "quantifier": "all directories, script names, arguments, failures of system calls", "why_tests_cant": "arbitrary paths", "anchors": ["epsilon/scripts/benchmark.py:169-195", "epsilon/scripts/benchmark.py:505-528", "epsilon/scripts/benchmark.py:565-578"]}
{"id": "C144", "title": "benchmark's temporary directory goes away and nothing else does", "statement": "Whatever the benchmark does and however it ends, only its temporary directory is removed, with all that is in it; when benchmark returns or raises what the run raised, that directory is gone.", "quantifier": "all file systems, all runs, all failures of system calls", "why_tests_cant": "every file system and failure", "anchors": ["epsilon/scripts/benchmark.py:505-528"]}
{"id": "C145", "title": "getSize adds up what is in a directory", "statement": "getSize of a path is the sum of the sizes of everything in the tree there, each counted once.", "quantifier": "all file trees with links", "why_tests_cant": "trees of any depth", "anchors": ["epsilon/scripts/benchmark.py:437-460"]}
{"id": "C146", "title": "FilePaths are compared by what they name", "statement": "Two FilePaths are equal exactly if they name the same place; equal ones have equal hashes; they are totally ordered; a FilePath equals no object of another type.", "quantifier": "all working directories and path texts", "why_tests_cant": "all texts, transitivity", "anchors": ["epsilon/hotfixes/filepath_copyTo.py:291-294"]}
{"id": "C147", "title": "A StringTransport holds exactly the bytes written", "statement": "After any calls of write, the transport holds the bytes of the calls that were not given unicode, in order; the others raise TypeError and change nothing.", "quantifier": "all histories of calls", "why_tests_cant": "arbitrary histories", "anchors": ["epsilon/hotfixes/proto_helpers_stringtransport.py:5-8"]}
{"id": "C148", "title": "A version text gives its version", "statement": "asTwistedVersion of a text that begins with one to three numbers with dots between gives the version of these numbers, whatever follows.", "quantifier": "all version texts", "why_tests_cant": "all texts", "anchors": ["epsilon/__init__.py:4-9"]}
{"id": "C149", "title": "The text of a delayed call tells what will be called and when", "statement": "At any time, after any history, str() of a pending DelayedCall gives the seconds until it is made and the function with all its arguments; a cancelled one can still be shown.", "quantifier": "all histories of resets, delays and cancellations, all functions and arguments", "why_tests_cant": "arbitrary histories", "anchors": ["epsilon/hotfixes/delayedcall_seconds.py:38-55", "epsilon/hotfixes/delayedcall_seconds.py:119-152"]}
{"id": "C150", "title": "Delayed calls are ordered by when they are made", "statement": "Any two delayed calls can be compared by a heap, which takes for the smaller the one that is made first.", "quantifier": "all histories of both calls", "why_tests_cant": "arbitrary histories", "anchors": ["epsilon/hotfixes/delayedcall_seconds.py:116-117"]}
{"id": "C151", "title": "Stopping a router stops all its receivers, whatever they do", "statement": "Stopping a running router stops the receiver of every route bound to it, whatever the receivers do with the router while they are being stopped, as long as they handle the exceptions they cause.", "quantifier": "all receivers, with any state and any reactions; all routers reached with them", "why_tests_cant": "re-entrant calls at any depth", "anchors": ["epsilon/amprouter.py:64-68", "epsilon/amprouter.py:192-198"]}
{"id": "C152", "title": "Starting a router starts all connected receivers once, whatever they do", "statement": "Starting a router starts the receiver of every bound route that is connected exactly once, whatever the receivers do with the router while they are being started, as long as they handle the exceptions they cause.", "quantifier": "all receivers, with any state and any reactions; all routers reached with them", "why_tests_cant": "re-entrant calls at any depth", "anchors": ["epsilon/amprouter.py:52-61", "epsilon/amprouter.py:168-180"]}
{"id": "C153", "title": "A router leaves the boxes it is given as they are", "statement": "Sending a box through a route, and receiving a box, leave the caller's box as it was; so a box can be sent again through another route.", "quantifier": "all histories of calls, all boxes", "why_tests_cant": "arbitrary histories", "anchors": ["epsilon/amprouter.py:85-93", "epsilon/amprouter.py:183-189"]}
{"id": "C154", "title": "A client's login is decided by the user's password", "statement": "On one connection a client may start logins at any time. A login with the user's password is never rejected, a login succeeds only with a password of the user that hashes to the same response, only the user name and hashes are sent, and every login is decided when nothing is outstanding or the connection is lost.", "quantifier": "all interleavings of logins, deliveries, decisions of the portal, answers of avatars and loss of the connection; all passwords, nonces, challenges and hash functions", "why_tests_cant": "arbitrary interleavings of concurrent logins", "anchors": ["epsilon/ampauth.py:273-301", "epsilon/ampauth.py:204-258"]}
{"id": "C155", "title": "A login whose avatar raises is still answered and logged out", "statement": "On a connection with one accepted login, whatever its avatar, its logout callable or the portal raise: the peer is answered with success, and when the connection ends the avatar is told and logged out, each once.", "quantifier": "all orders of commands, portal answers, errors raised and connection loss", "why_tests_cant": "every combination of histories and places to raise", "anchors": ["epsilon/ampauth.py: CredReceiver._login, connectionLost"]}
{"id": "C156", "title": "The repr of a Time is an expression for it", "statement": "repr(t) is the text of a Python expression extime.Time.fromDatetime(datetime.datetime(...)) of numbers; evaluating it gives t back, and two Times have the same repr exactly if they are equal.", "quantifier": "all times from the year 1 to 9999, to the microsecond, of any resolution", "why_tests_cant": "Tests compare a few texts; that no two different times share one and that every one can be read back needs all of them.", "anchors": ["epsilon/extime.py:949-950 Time.__repr__"]}
{"id": "C157", "title": "A dictionary with Caseless keys ignores case", "statement": "A dictionary in which Caseless keys are set and deleted gives, for every key, what was last set under a key equal to it up to case and not deleted since; no two of its keys differ only in case, and each is spelled as it was when first set.", "quantifier": "all histories of setting and deleting items, all lower-casings that are idempotent, all hash functions and collisions", "why_tests_cant": "Tests try a few keys; interchangeability must hold for all histories and whatever the hashes are.", "anchors": ["epsilon/caseless.py: Caseless.__eq__, __hash__", "epsilon/caseless.py:20-27 the example of the documentation"]}
{"id": "C158", "title": "A Time shown in a zone with summer time is the same Time", "statement": "For every timezone with summer time and every Time finer than a day, Time.fromDatetime(t.asDatetime(tz)) == t, and Time.fromStructTime(t.asStructTime(tz), tz) is t truncated to the second.", "quantifier": "all standard offsets, savings, rules of when it is summer, all times", "why_tests_cant": "Tests use fixed offsets or a few dates; the rule must work on both sides of every change of the clock.", "anchors": ["epsilon/extime.py:592-604 Time.fromDatetime", "epsilon/extime.py:672-684 Time.asDatetime", "epsilon/extime.py:573-588 Time.fromStructTime", "epsilon/extime.py:800-810 Time.asStructTime"]}
{"id": "C159", "title": "Texts written in a zone with summer time denote the Time", "statement": "For every timezone with summer time, the texts asISO8601TimeAndDate(tzinfo=tz) and asRFC2822(tz) of a Time, which include the offset in force, read back as that Time (to the resolution or second).", "quantifier": "all standard offsets, savings and rules of when it is summer, all times, with or without delimiters or day of week", "why_tests_cant": "Tests use fixed offsets; the offset written must be the one in force on both sides of every change.", "anchors": ["epsilon/extime.py:743-798 Time.asISO8601TimeAndDate", "epsilon/extime.py:695-729 Time.asRFC2822"]}
{"id": "C160", "title": "A clock time typed in a zone with summer time is the next one", "statement": "Time.fromHumanly of a clock time h:m in a timezone with summer time gives a Time from the current minute on, which is shown as h:m in that zone.", "quantifier": "all hours and minutes, all zones with summer time, all current times", "why_tests_cant": "Tests use fixed offsets; whether it holds around the changes of the clock needs every current time and rule.", "anchors": ["epsilon/extime.py:224-246 Time._fromTime"]}
{"id": "C161", "title": "Calls in flight while the peer logs in get their answers", "statement": "Every callRemote made over a CredReceiver's connection (by the CredReceiver itself or by an avatar that became the receiver of boxes) fires with the peer's answer to that very call, no answer breaks the connection, and when the connection is lost every call has fired or failed.", "quantifier": "all interleavings of calls, logins, answers in any order, and connection loss", "why_tests_cant": "A login changes where answers go while calls are open; whether each answer finds its call depends on every interleaving.", "anchors": ["epsilon/ampauth.py:189-201 CredReceiver._login", "epsilon/ampauth.py:221-228 CredReceiver.connectionLost"]}
{"id": "C162", "title": "What the body of a modal class binds is kept", "statement": "Whatever the body of a modal class binds to anything but a mode (a docstring, a constant, a function) is found under its name on the class and on its instances.", "quantifier": "all class bodies, bases, modes and instances", "why_tests_cant": "Whether a name survives depends on what every mode of the body binds, including what Python binds by itself.", "anchors": ["epsilon/modal.py:95-115 ModalType.__new__", "epsilon/modal.py:26-42 ModalMethod.__get__"]}
{"id": "C163", "title": "A matching one-time pad logs in", "statement": "A one-time pad that is registered with a OneTimePadChecker and has not authenticated anybody yet logs in whenever the realm has an avatar for it; a pad that has is refused.", "quantifier": "all pads, all histories of login attempts over any connections, all outcomes of the realm and the avatars", "why_tests_cant": "When a pad is used up matters only after failures at each possible point of earlier logins.", "anchors": ["epsilon/iepsilon.py:20-25 IOneTimePad.padValue", "epsilon/ampauth.py:244-247 OneTimePadChecker.requestAvatarId", "epsilon/ampauth.py:189-201 CredReceiver._login"]}
{"id": "C164", "title": "Routes work over an AMP connection", "statement": "A box sent through a route connected to a name is written to the AMP connection, and the router at the other end gives it to the receiver bound under this name (Python 3, with Twisted's AMP connection at both ends).", "quantifier": "all histories of calls at both ends, all boxes, all names", "why_tests_cant": "arbitrary histories at both ends; the tests use stub senders that take any dictionary", "anchors": ["epsilon/amprouter.py:17", "epsilon/amprouter.py:85-93", "epsilon/amprouter.py:183-189"]}
{"id": "C165", "title": "The check whether Clock needs its fix is right", "statement": "clockIsBroken() is True exactly if Clock.callLater sometimes returns another DelayedCall than the one it made; once the fix was required, every callLater returns its own call.", "quantifier": "all implementations that schedule correctly and return any call, all histories", "why_tests_cant": "one check must stand for all histories", "anchors": ["epsilon/hotfixes/internet_task_clock.py:21-38", "epsilon/hotfix.py:55-61"]}
{"id": "C166", "title": "A directory can be copied to a place above or below itself", "statement": "copyTo of a directory that holds files and directories only, to any other place which can take it, ends when nothing fails, and every file and directory is then at its place below the destination; also when the destination lies below the source, or above it.", "quantifier": "all trees, all pairs of places one of which is above the other, all failures of the operating system, any number of levels", "why_tests_cant": "tests copy one small tree to a place elsewhere; the two nested cases differ by what the loop over a directory meets of its own work, at any depth", "anchors": ["epsilon/hotfixes/filepath_copyTo.py:335-367", "epsilon/hotfixes/filepath_copyTo.py:323-324"]}
{"id": "C167", "title": "Noon and midnight typed in a zone with summer time are the next ones", "statement": "Time.fromHumanly of 'noon' or 'midnight' in a timezone with summer time gives a Time from the start of the current hour of that zone on, which is shown as 12:00 or 0:00 in that zone.", "quantifier": "both words, all zones with summer time, all current times", "why_tests_cant": "Tests use fixed offsets; whether it holds around the changes of the clock, some of which are at midnight, needs every current time and rule.", "anchors": ["epsilon/extime.py:248-263 Time._fromNoonOrMidnight"]}
{"id": "C168", "title": "The bounds of a day in a zone with summer time hold all of the day", "statement": "getBounds with a timezone with summer time, of a Time with a resolution of a day or more, gives two Times such that every Time shown in that zone as a time of the period is within them.", "quantifier": "all periods of a day or more, all zones with summer time, all Times shown in them", "why_tests_cant": "Tests take one constant offset; the start and end of a period have offsets of their own, so that every rule of when it is summer matters.", "anchors": ["epsilon/extime.py:860-902 Time.getBounds"]}
{"id": "C169", "title": "A Caseless can be compared with anything", "statement": "== and != between a Caseless and any object, and looking for a Caseless in any list, give an answer and do not raise.", "quantifier": "all objects on either side, all lists", "why_tests_cant": "Tests compare strings; it must hold for every kind of object and every position in a list.", "anchors": ["epsilon/caseless.py:93-97 Caseless.__eq__ and __ne__", "epsilon/caseless.py:115-124 Caseless.__contains__ and startswith"]}
{"id": "C170", "title": "sorted with key=Caseless sorts without regard to case", "statement": "sorted(l, key=Caseless) has the strings of l, none before one that is smaller in lower case, those that differ in case only in the order they had in l, and is determined by that.", "quantifier": "all lists of strings", "why_tests_cant": "The documentation's example has two strings; stability and order must hold for every list.", "anchors": ["epsilon/caseless.py:99-100 Caseless.__lt__", "epsilon/caseless.py:23-24"]}
{"id": "C171", "title": "Texts for people in a zone with summer time tell times apart", "statement": "If asHumanly with seconds gives the same text for two Times, neither all-day, in a timezone with summer time at one current time, the two are of the same second.", "quantifier": "all Times, zones with summer time and current times", "why_tests_cant": "Tests use fixed offsets; the hours around the change of the clock need every Time and every rule.", "anchors": ["epsilon/extime.py:812-854 Time.asHumanly"]}
{"id": "C172", "title": "The text of a time later today reads back in a zone with summer time", "statement": "The clock time asHumanly writes of a Time later on the current day of a timezone with summer time, typed into fromHumanly at that current time, is the minute of that Time.", "quantifier": "all Times, zones with summer time and current times", "why_tests_cant": "Tests use fixed offsets; the hours around the change of the clock need every Time and every rule.", "anchors": ["epsilon/extime.py:812-854 Time.asHumanly", "epsilon/extime.py:224-246 Time._fromTime"]}
{"id": "C173", "title": "Day words follow the user's timezone", "statement": "For every timezone offset and every current time, Time.fromHumanly of 'today', 'tomorrow' or 'yesterday' with that tzinfo gives the day it is (or the day after, or before) in that timezone, and of a weekday the first such day after today there; what is typed as 'today' is shown to the same person as today.", "quantifier": "all offsets, all current times, all spellings of the words", "why_tests_cant": "the clock at which tests run and the zone they use usually agree with UTC about the date; the difference shows for a few hours a day", "anchors": ["epsilon/extime.py:196-221", "epsilon/extime.py:310-340", "epsilon/extime.py:812-854"]}
{"id": "C174", "title": "A modal class needs a mode attribute and an initial mode", "statement": "Making a class with ModalType succeeds when modeAttribute and initialMode are each bound (to a string) in the body or in some ancestor, however far away, and raises TypeError when one of them is bound nowhere.", "quantifier": "all class bodies, all hierarchies of bases", "why_tests_cant": "The search recurses through arbitrary hierarchies and treats the failure in one branch as a reason to try the next.", "anchors": ["epsilon/modal.py:66-80 _getInheritedAttribute", "epsilon/modal.py:95-115 ModalType.__new__"]}
{"id": "C175", "title": "A modal class follows the mode attribute it has", "statement": "The attribute which the methods of a modal class look at to find the mode is the one the class names: the value of modeAttribute on the class. Likewise initialMode.", "quantifier": "all class bodies, all hierarchies of bases which Python accepts", "why_tests_cant": "The library searches the bases depth first, Python by its method resolution order; they differ only in some hierarchies.", "anchors": ["epsilon/modal.py:66-80 _getInheritedAttribute", "epsilon/modal.py:95-115 ModalType.__new__"]}
{"id": "C176", "title": "Unbinding a route concerns that route only", "statement": "A bound route can be unbound; boxes for it are then refused, and boxes for all other routes are delivered as before. Unbinding it again raises KeyError and changes nothing.", "quantifier": "all histories of a router, all boxes", "why_tests_cant": "The name of a route may have been given to another route since, or the router not be started yet.", "anchors": ["epsilon/amprouter.py:64-68 Route.unbind", "epsilon/amprouter.py:144-166 Router.bindRoute"]}
{"id": "C177", "title": "The simulated connection carries what is written", "statement": "With the IOPump of epsilon.test.iosim, the bytes one end has received plus those still waiting in its peer's file are exactly the bytes the peer wrote, in order.", "quantifier": "all protocols, all code using them, all schedules of pumping, with and without debug", "why_tests_cant": "Loss shows only when an end raises an exception while the other has data waiting, or in debug mode.", "anchors": ["epsilon/test/iosim.py:13-94 readAndDestroy, IOPump.pump", "epsilon/test/utils.py:24-56 FileWrapper"]}
{"id": "C178", "title": "flush pumps until the conversation has ended", "statement": "IOPump.flush returns whenever the conversation ends by itself, tells whether anything was moved, leaves nothing to be moved, and has told both ends if one closed the connection.", "quantifier": "all protocols and producers, all states of the connection", "why_tests_cant": "The number of rounds is unbounded; producers write at a moment the tests do not use.", "anchors": ["epsilon/test/iosim.py:37-51 IOPump.flush", "epsilon/test/utils.py:31-46 FileWrapper._checkProducer"]}
{"id": "C179", "title": "The end of a simulated connection is told once and last", "statement": "Each end of the pumped connection is told at most once that it is lost, has by then received all that was written before, and receives nothing afterwards.", "quantifier": "all protocols, all schedules", "why_tests_cant": "What is written between the two notifications depends on the schedule.", "anchors": ["epsilon/test/iosim.py:80-93 IOPump.pump"]}
{"id": "C180", "title": "A benchmark run ends when the benchmark does", "statement": "benchmark.bench returns once the Deferred of the benchmark has a result (good, a timeout, a dead process, or a failure while the results are reported, which is logged), and raises what the function raises that should start it.", "quantifier": "all results, all moments at which the Deferred fires, all failures of reporting", "why_tests_cant": "The Deferred may fire before the reactor runs.", "anchors": ["epsilon/scripts/benchmark.py:468-513 _bench, bench"]}
{"id": "C181", "title": "Processes that set and read one file at the same time", "statement": "When several processes call FilePath.setContent and FilePath.getContent on one path at the same time, interleaved at every system call, with reads and writes of any size and writers killed at any point, the file behaves as a variable that setContent assigns at the moment it returns: every getContent returns, whole, what the file held when it was opened, and no setContent fails.", "quantifier": "for all paths, all extensions given to setContent, all numbers of processes and contents, all interleavings, all sizes of transfer and all crash points", "why_tests_cant": "Tests run one process at a time; the interleavings, the partial writes and the points where a process is killed are unbounded.", "anchors": ["epsilon/hotfixes/filepath_copyTo.py:148-155", "epsilon/hotfixes/filepath_copyTo.py:281-287"]}
{"id": "C182", "title": "Who is at the other end cannot be forged by what it sends", "statement": "Whatever box the peer sends for a juice command, if the responder is called its keyword arguments are exactly the declared arguments and extra arguments; every extra argument (Peer, PeerDomain, PeerUser, Host, HostDomain, HostUser) has the value that the transport gives, even where the box or an argument uses its name, and every other one is read from the box under its own name; what the box holds under other names has no effect; a responder that asks for an identity the transport does not know is never called. The same holds of the dictionary that the caller of a command gets.", "quantifier": "for all declarations of arguments (any argument classes) and extra arguments, all transports and all boxes", "why_tests_cant": "The boxes a hostile peer can send are unbounded; tests send the ones that the client code makes.", "anchors": ["epsilon/juice.py:210-232", "epsilon/juice.py:546-572", "epsilon/juice.py:667-680", "epsilon/juice.py:980-985"]}
{"id": "C183", "title": "What a peer can make a connection hold", "statement": "A LineReceiver never buffers more than MAX_LINE_LENGTH bytes and never delivers a longer line, and what a Juice connection holds of a box that is not complete is bounded, whatever the peer sends.", "quantifier": "for all handlers, all streams and all ways of cutting them into chunks", "why_tests_cant": "The streams a peer can send are unbounded in length, and so are the ways they arrive.", "anchors": ["epsilon/liner.py:8-63", "epsilon/juice.py:745", "epsilon/juice.py:880-918"]}
{"id": "C184", "title": "A remembered attribute accessed by several threads at once", "statement": "If the creation function neither raises nor returns None, it is called at most once per instance and every access returns the same value, also when several threads access the attribute at once or it is accessed again while the function runs.", "quantifier": "for all numbers of accesses, all interleavings of their lookups, calls and stores, and all results of the calls", "why_tests_cant": "the schedules are unbounded and a test run shows one of them", "anchors": ["epsilon/remember.py:24-35"]}
{"id": "C185", "title": "Processes that make directories at the same time", "statement": "Several processes may call makedirs and createDirectory at once: where nothing is at a path and nothing but directories on the way to it, every makedirs of it that ends has made sure that the directory exists and ends normally; nothing else is changed, whoever is killed.", "quantifier": "for all file systems, all numbers of processes and paths, all interleavings of their system calls, all failures of these and all points where they are killed", "why_tests_cant": "the schedules are unbounded and a test run shows one of them", "anchors": ["epsilon/hotfixes/filepath_copyTo.py:259-260", "epsilon/hotfixes/filepath_copyTo.py:296-297"]}
