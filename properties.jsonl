{"id": "C01", "title": "Heartbeat packets carry any 32-bit time exactly", "statement": "Writing a heartbeat with a time and reading the time back returns exactly that time, the payload is the big-endian 4-byte encoding, and the packet id and the payload bytes after the fourth are untouched. This holds whatever the packet contained before and on both builds (host and device).", "quantifier": "every 32-bit time, every previous packet content, both builds", "why_tests_cant": "2^32 times (including those whose top byte is >= 128, where the decoder shifts a promoted int) times every previous content; a test samples a few.", "anchors": ["lib/radio/Radio.cpp: RadioPacket::writeHeartbeat, readTimeFromHeartbeat"]}
{"id": "C02", "title": "Effect packets carry effect, hold time and palette exactly", "statement": "After writing a set-effect packet with (effect, delay, palette), the three readers return exactly these three bytes, whatever the packet held before; id and later payload bytes are untouched.", "quantifier": "every triple of bytes, every previous packet content, both builds", "why_tests_cant": "2^24 triples times every previous content.", "anchors": ["lib/radio/Radio.cpp: writeSetEffect, readEffectIndexFromSetEffect, readDelayFromSetEffect, readPaletteIndexFromSetEffect"]}
{"id": "C03", "title": "Control packets carry hold time and colour exactly", "statement": "After writing a control packet with (delay, r, g, b) the readers return exactly the delay and the colour, whatever the packet held before; id and later payload bytes are untouched.", "quantifier": "every delay and colour, every previous packet content, both builds", "why_tests_cant": "2^32 combinations times every previous content.", "anchors": ["lib/radio/Radio.cpp: writeControl, readDelayFromSetControl, readRgbFromSetControl"]}
{"id": "C04", "title": "Typed readers accept exactly their own packet kind", "statement": "On the host build each typed reader returns a value exactly when the packet's type and payload length are those its writer produces, and aborts otherwise. On the device build it always returns the raw payload byte(s), whatever type and length say: in particular a control packet read with the set-effect readers yields the control delay as effect index and the red channel as delay.", "quantifier": "every packet (any type value, any length byte, any payload), both builds", "why_tests_cant": "Aborts cannot be enumerated by a test, and the device behaviour cannot be run on the host.", "anchors": ["lib/radio/Radio.cpp: read* functions (assert under #ifndef ARDUINO)"]}
{"id": "C05", "title": "Packet equality means same id, type, length and payload", "statement": "Two packets compare equal exactly when both lengths are at most 58, their ids, types and lengths agree and their payloads agree on the first length bytes; bytes after the length never matter; equality is symmetric and transitive; a packet with length above 58 is not even equal to itself.", "quantifier": "every pair of packets", "why_tests_cant": "The claim quantifies over all pairs of 61-byte records.", "anchors": ["lib/radio/Radio.hpp: operator=="]}
{"id": "C06", "title": "Radio frames preserve id, type and payload", "statement": "For every packet with payload length 1..58 the frame the device transmits is 3+length bytes and decoding it yields the same id, the same type (as a byte) and the same payload bytes, whatever the receiving buffer held before. The receiver's length field is NOT restored: it keeps the value it had before (0 for a fresh packet).", "quantifier": "every packet, every previous content of the receive buffer", "why_tests_cant": "Needs the radio hardware; and the loss of the length field has no host-side test because the fake radio copies the struct.", "anchors": ["src/arduino/RadioHeadRadio.cpp: readPacket, sendPacket"]}
{"id": "C07", "title": "Packets without payload are never delivered over the real radio", "statement": "A frame of three bytes or less never yields a packet, so a packet whose length is 0 (every CLAIM_MASTER packet the code sends) is never seen by any receiver on the device build.", "quantifier": "every packet of length 0, every receive buffer content", "why_tests_cant": "Needs the radio hardware; on the host the fake radio delivers such packets.", "anchors": ["src/arduino/RadioHeadRadio.cpp: readPacket (received_length > kFrontPacketPadding)", "src/generic/RadioStateMachine.cpp: PerformMasterElection"]}
{"id": "C08", "title": "Relayed packets die after one hop on the real radio", "statement": "When a device node accepts a packet from the real radio and relays it, the relayed frame has no payload and is not delivered to any receiver. The same holds for the current-effect broadcast of a master that learned the effect over the radio. So multi-hop relaying, which works with the fake radio, does not work with the device radio. A master's heartbeats and own effect changes do arrive, with id, type and payload.", "quantifier": "every frame, every node state, every receive buffer content", "why_tests_cant": "Needs two device radios; host tests use a fake radio that keeps the length.", "anchors": ["src/arduino/RadioHeadRadio.cpp: readPacket", "src/generic/NetworkManager.cpp: NetworkManager::receive", "src/generic/RadioStateMachine.cpp: handleSlaveEvent, handleMasterEvent"]}
{"id": "C09", "title": "Radio buffer accesses stay in bounds", "statement": "Sending is free of out-of-bounds accesses exactly for payload lengths up to 58. Receiving is free of out-of-bounds accesses exactly for frames of at most 61 bytes; a link layer limited to 60-byte messages (RadioHead RF69) therefore never overflows the payload array.", "quantifier": "every packet length byte 0..255, every frame length, every content", "why_tests_cant": "Out-of-bounds writes are undefined behaviour; a passing test says nothing about other lengths.", "anchors": ["src/arduino/RadioHeadRadio.cpp: readPacket, sendPacket", "src/arduino/RadioHeadRadio.hpp: kMaxFifoSizePacketSize, kMaxPacketSize"]}
{"id": "C10", "title": "A node accepts a packet exactly when its id is not one of the last five ids it transmitted", "statement": "At any point of any history of sends and receives, receiving a packet succeeds exactly when the packet's id differs from the ids of the last five packets this node put on the air (sent or relayed; before five transmissions the missing ones count as id 0).", "quantifier": "every finite history of send and receive calls with every packet and every random draw", "why_tests_cant": "The window is a circular buffer; the claim is about all histories, in particular past several wrap-arounds.", "anchors": ["src/generic/NetworkManager.cpp: receive, send, AddToRecentIdsCache"]}
{"id": "C11", "title": "Relaying is exact: once, unchanged, and only when accepted", "statement": "A receive call that returns true transmits exactly one packet, equal to the received one in every field; a receive call that returns false transmits nothing and leaves the node's memory of recent ids unchanged.", "quantifier": "every node state and every incoming packet", "why_tests_cant": "Quantifies over all packets and all reachable states.", "anchors": ["src/generic/NetworkManager.cpp: receive"]}
{"id": "C12", "title": "A node does not accept its own packet back too early", "statement": "After a node transmits a packet, an echo of that packet (any packet with the same id) is rejected as long as fewer than five further packets were transmitted by that node; after five further transmissions with other ids it is accepted again.", "quantifier": "every history before, every history of up to four (respectively five) transmissions after", "why_tests_cant": "Histories are unbounded.", "anchors": ["src/generic/NetworkManager.cpp: receive, send, AddToRecentIdsCache"]}
{"id": "C13", "title": "Packet id 0 is invisible to a young node", "statement": "A node that has transmitted fewer than five packets rejects every packet with id 0; a node that has transmitted five packets with non-zero ids since the last id 0 accepts it.", "quantifier": "every history", "why_tests_cant": "The fill value 0 of the cache is indistinguishable from a seen id; tests never use id 0.", "anchors": ["src/generic/NetworkManager.cpp: NetworkManager::NetworkManager, receive"]}
{"id": "C14", "title": "Ids of originated packets", "statement": "On the device build every packet a node originates has an id between 2 and 65534. On the host build the id lies in {0} or 2..65535: the documented range [2, 0xFFFF) is not respected, ids 65535 and 0 can occur, and a packet sent with id 0 is dropped by every freshly started receiver.", "quantifier": "every random draw, both builds", "why_tests_cant": "The bad ids have probability 2/65535 each per packet; sampling will not show their absence.", "anchors": ["src/generic/NetworkManager.cpp: send", "lib/types/Types.cpp: random(min,max)"]}
{"id": "C15", "title": "Flooding terminates when at most five ids are in flight", "statement": "In a network of any number of nodes with any topology, loss, duplication, delay and delivery order, if at most five different non-zero ids are ever originated then every node transmits each id at most once, so there are at most (number of nodes) x 5 transmissions in total.", "quantifier": "every number of nodes, every schedule of deliveries of any length, every set of at most five ids", "why_tests_cant": "All interleavings of an unbounded asynchronous network.", "anchors": ["src/generic/NetworkManager.cpp: receive, send"]}
{"id": "C16", "title": "Six ids in flight can circulate for ever", "statement": "With six different ids and two nodes there are delivery schedules, in which a node only ever hears what the other one transmitted, that make the nodes relay more often than any given bound: duplicate suppression does not bound traffic beyond five ids.", "quantifier": "for every bound there is a schedule", "why_tests_cant": "A test run is finite; the claim is about unbounded traffic.", "anchors": ["src/generic/NetworkManager.cpp: kRecentIdsCacheSize, receive"]}
{"id": "C17", "title": "A node takes over only after five seconds of silence", "statement": "If a node goes from slave to master at local time now (clock not wrapped), then it was constructed more than 5000 ms earlier, accepted no heartbeat or claim-master packet during the last 5000 ms (in any role) and did not step down during the last 5000 ms.", "quantifier": "every history of radio ticks and API calls at non-decreasing times, every packet sequence, every random draw, both builds", "why_tests_cant": "All schedules of ticks and packets; the timeout is random.", "anchors": ["src/generic/RadioStateMachine.cpp: RadioTick, handleSlaveEvent, beginSlave, SetTimer, TimerExpired"]}
{"id": "C18", "title": "A silent network gets a master within seven seconds", "statement": "If a slave was constructed, last heard an accepted heartbeat/claim, and last stepped down more than 6999 ms ago, then any radio tick that accepts no packet makes it master, and it immediately sends one heartbeat carrying its network time.", "quantifier": "every history, every random draw, both builds (clock not wrapped)", "why_tests_cant": "All histories and timeouts.", "anchors": ["src/generic/RadioStateMachine.cpp: RadioTick, handleSlaveEvent, beginMaster"]}
{"id": "C19", "title": "A slave that keeps hearing heartbeats stays slave", "statement": "If a slave accepts a heartbeat or a claim at least every 5000 ms it never becomes master, however the ticks are scheduled and whatever other packets arrive.", "quantifier": "every history with that spacing, of any length", "why_tests_cant": "Unbounded histories.", "anchors": ["src/generic/RadioStateMachine.cpp: handleSlaveEvent, RadioTick"]}
{"id": "C20", "title": "Master heartbeat cadence", "statement": "While a node is master its own heartbeats are more than 1000 ms apart, every heartbeat carries the network time of the moment, and the first radio tick that accepts no packet later than 1000 ms after its previous heartbeat sends one.", "quantifier": "every history in which the node is master, every packet sequence (clock not wrapped)", "why_tests_cant": "All schedules.", "anchors": ["src/generic/RadioStateMachine.cpp: handleMasterEvent, beginMaster, SendHeartbeat"]}
{"id": "C21", "title": "Traffic starves timers", "statement": "A radio tick that accepts a packet never fires a timer. Hence, for every n, n consecutive ticks each accepting a packet that is not a heartbeat or claim leave a slave a slave and make a master send no heartbeat and no effect, however much time passes.", "quantifier": "every n, every packet sequence and every passage of time", "why_tests_cant": "Unbounded sequences.", "anchors": ["src/generic/RadioStateMachine.cpp: RadioTick (one event type per iteration)"]}
{"id": "C22", "title": "Master election", "statement": "A master that accepts a heartbeat draws a number; if it is greater than the heartbeat's packet id it stays master and sends exactly one claim-master packet (besides the relay), otherwise it becomes slave and sends nothing but the relay. A heartbeat with id 0 never demotes it, one with id 65535 always does (device: also 65534).", "quantifier": "every master state, every heartbeat packet, every draw, both builds", "why_tests_cant": "All ids times all draws.", "anchors": ["src/generic/RadioStateMachine.cpp: PerformMasterElection, handleMasterEvent"]}
{"id": "C23", "title": "Only heartbeat, claim and silence change the role", "statement": "In one radio tick a slave becomes master only by its silence timer, a master becomes slave only by an accepted claim-master or by a lost election on an accepted heartbeat; an accepted claim always demotes a master. No API call changes the role.", "quantifier": "every state, every incoming packet, every API call", "why_tests_cant": "All states and packets.", "anchors": ["src/generic/RadioStateMachine.cpp: RadioTick, handleSlaveEvent, handleMasterEvent, SetEffect"]}
{"id": "C24", "title": "Unknown packet types are inert", "statement": "Accepting a packet whose type is none of the four known ones relays it and changes nothing observable: role, network time, effect, timers and later behaviour apart from duplicate suppression.", "quantifier": "every unknown type value, every payload and length, every state, both builds", "why_tests_cant": "252 types times all payloads times all states.", "anchors": ["src/generic/RadioStateMachine.cpp: handleSlaveEvent, handleMasterEvent"]}
{"id": "C25", "title": "Network time follows the last heartbeat exactly", "statement": "After a slave accepts a heartbeat with time T at local time m, its network time at any later local time m' is T + (m' - m) modulo 2^32, as long as it accepts no further heartbeat as slave, whatever else happens (other packets, role changes, API calls), including across wrap-around of either clock.", "quantifier": "every T, m, m', every history in between", "why_tests_cant": "2^96 combinations and unbounded histories; involves mixed signed/unsigned arithmetic.", "anchors": ["src/generic/RadioStateMachine.cpp: handleSlaveEvent, GetNetworkMillis"]}
{"id": "C26", "title": "All nodes agree on the network time", "statement": "In a network of any number of nodes with arbitrary local clock offsets, if all nodes agree on the network time and heartbeats are delivered without latency, all nodes agree for ever, whatever roles change and whatever else is exchanged. With latency L a slave lags exactly L behind the sender.", "quantifier": "every number of nodes, clock offsets, roles, schedules", "why_tests_cant": "Unbounded networks and schedules.", "anchors": ["src/generic/RadioStateMachine.cpp: handleSlaveEvent, SendHeartbeat, GetNetworkMillis"]}
{"id": "C27", "title": "Effect adoption", "statement": "Accepting a well-formed set-effect packet, in either role, makes the current effect packet equal to it and the effect index equal to its effect byte (all 256 values, despite the signed storage); accepting a well-formed control packet makes it current and leaves the effect index unchanged.", "quantifier": "every state, every packet, both builds", "why_tests_cant": "All packets and states; indices 128..255 go through int8_t.", "anchors": ["src/generic/RadioStateMachine.cpp: handleSlaveEvent, handleMasterEvent, GetEffectIndex, GetSetEffect"]}
{"id": "C28", "title": "Effect index and current effect packet agree, except at power-up", "statement": "At construction the effect index is 0 while the current effect packet says 1. From the first accepted set-effect packet, own effect change or SetEffect call on, in any history, whenever the current packet is a set-effect packet its effect byte equals the effect index.", "quantifier": "every history, every packet, both builds", "why_tests_cant": "Unbounded histories.", "anchors": ["src/generic/RadioStateMachine.cpp: RadioStateMachine, handleSlaveEvent, handleMasterEvent, SetEffect"]}
{"id": "C29", "title": "The master picks only configured effects and palettes", "statement": "Every effect a master originates by itself has effect index below the configured number of effects, palette index below the configured number of palettes and delay 0, provided both numbers are positive and the number of effects is at most 128 or any number up to 255 (signed storage does not matter).", "quantifier": "every random draw, every configured count 1..255, every history, both builds", "why_tests_cant": "All draws and counts.", "anchors": ["src/generic/RadioStateMachine.cpp: handleMasterEvent, SetNumEffects, SetNumPalettes", "lib/types/Types.cpp: random"]}
{"id": "C30", "title": "Hold time is honoured by a master", "statement": "After a master accepts a set-effect (or control) packet with delay d > 0, it does not pick an effect by itself for d seconds as long as it stays master and accepts no other effect/control packet and no SetEffect is called; the first radio tick without packet or due heartbeat after d seconds makes it pick one.", "quantifier": "every d, every history in between (clock not wrapped)", "why_tests_cant": "All schedules.", "anchors": ["src/generic/RadioStateMachine.cpp: handleMasterEvent, SetTimer"]}
{"id": "C31", "title": "A hold time of zero stops automatic changes", "statement": "After a master accepts a set-effect or control packet with delay 0 it never again picks an effect by itself while it stays master, unless it accepts another effect/control packet with non-zero delay or SetEffect is called: the promised change every 60 s does not happen.", "quantifier": "every history after that packet, of any length", "why_tests_cant": "Never = for all futures.", "anchors": ["src/generic/RadioStateMachine.cpp: handleMasterEvent, SetTimer (delay == 0 disables)"]}
{"id": "C32", "title": "Current effect is re-broadcast every two seconds", "statement": "While a node is master, re-broadcasts of its current effect packet are more than 2000 ms apart, carry the current packet with only its id changed, and happen at the first packet-free radio tick later than 2000 ms after the previous one on which neither heartbeat nor effect change is due.", "quantifier": "every history (clock not wrapped)", "why_tests_cant": "All schedules.", "anchors": ["src/generic/RadioStateMachine.cpp: handleMasterEvent, beginMaster"]}
{"id": "C33", "title": "Effect cadence survives a change of master", "statement": "A node that becomes master e ms after it last saw the effect change schedules its first own effect change 60000 - e ms later if e < 60000 and 1 ms later if e > 60000. If e is exactly 60000 it schedules none at all. If the clock moves while the node becomes master, the same can happen for an e below 60000 (finding).", "quantifier": "every e, every history (clock not wrapped)", "why_tests_cant": "One e in 2^32 fails.", "anchors": ["src/generic/RadioStateMachine.cpp: beginMaster, SetTimer"]}
{"id": "C34", "title": "Repeated announcements do not reset the cadence", "statement": "A slave that accepts a set-effect packet with the effect and palette it already shows keeps the time of last effect change, for effect indices below 128. For indices from 128 on every repetition counts as a change.", "quantifier": "every effect and palette, every history", "why_tests_cant": "int8_t versus uint8_t comparison; tests use small indices.", "anchors": ["src/generic/RadioStateMachine.cpp: handleSlaveEvent"]}
{"id": "C35", "title": "Timers and the 49-day clock wrap", "statement": "When the millisecond clock plus a delay passes 2^32 the timer claims above fail: a delay ending exactly at 2^32 is never served (a master stops its heartbeats, a slave never takes over), any other delay past 2^32 is served at once (a slave takes over without silence).", "quantifier": "every delay and every clock value within delay of 2^32", "why_tests_cant": "Needs 49 days of uptime or an exhaustive clock.", "anchors": ["src/generic/RadioStateMachine.cpp: SetTimer, TimerExpired"]}
{"id": "C36", "title": "SetEffect adopts, broadcasts and holds", "statement": "Calling SetEffect with a set-effect packet makes it the current packet, transmits exactly one copy with a fresh id, sets the effect index, and the node, if and while it is master, picks no own effect for the given delay (60 s if the delay is 0).", "quantifier": "every packet, every state, every following history (clock not wrapped)", "why_tests_cant": "All histories.", "anchors": ["src/generic/RadioStateMachine.cpp: SetEffect"]}
{"id": "C37", "title": "SetEffect with a control packet misreads it", "statement": "Calling SetEffect with a control packet (as the controller does) aborts on the host build; on the device build the effect index becomes the control packet's delay and the hold time becomes the red channel in seconds (60 s when red is 0), not the packet's delay.", "quantifier": "every control packet, every state, both builds", "why_tests_cant": "The host test binary would abort; the device cannot be run.", "anchors": ["src/generic/RadioStateMachine.cpp: SetEffect", "src/devices/controller/controller.cpp: RunColorMode"]}
{"id": "C38", "title": "No packet can crash a device node's radio logic", "statement": "On the device build no sequence of incoming packets of any type, length and payload and no API call leads the radio state machine to undefined behaviour or an abort. On the host build a radio tick aborts exactly when it accepts a known packet type with a wrong payload length, or (slave) a set-effect packet repeating the current effect index while a control packet is current; with a zero number of effects or palettes configured a master's own effect change divides by zero.", "quantifier": "every history, every packet; both builds", "why_tests_cant": "All malformed packets in all states; the existing invalid-packet test never delivers its packets.", "anchors": ["src/generic/RadioStateMachine.cpp: RadioTick, handlers", "lib/radio/Radio.cpp: read*", "test/InvalidPacketTest.cpp"]}
{"id": "C39", "title": "Slaves are quiet", "statement": "While a node is slave a radio tick transmits at most one packet, namely the relay of the packet it accepted in that tick; a slave originates packets only through SetEffect, and the tick that makes it master originates exactly one heartbeat.", "quantifier": "every history and packet", "why_tests_cant": "All histories.", "anchors": ["src/generic/RadioStateMachine.cpp: RadioTick, handleSlaveEvent"]}
{"id": "C40", "title": "A lossy but bounded network keeps its master alone", "statement": "If a master's ticks without packets come at least every P ms and each of its heartbeats is accepted by a slave within D ms, and 1000 + P + D <= 5000, then from D ms after any heartbeat of the master on the slave never takes over while the master stays master.", "quantifier": "every P, D, every pair of histories satisfying the bounds", "why_tests_cant": "Unbounded two-node histories with arbitrary interleavings.", "anchors": ["src/generic/RadioStateMachine.cpp: RadioTick, handlers"]}
{"id": "C41", "title": "Election between two masters can leave none or two", "statement": "When two masters hear each other's heartbeat, the draws decide: both may step down, leaving no master until a silence timeout; both may win and claim, after which both claims demote both; exactly one master is not guaranteed. On the device radio claims are not delivered, so both may also stay masters.", "quantifier": "existence of schedules/draws; and the possible outcomes for all draws", "why_tests_cant": "Probabilistic outcomes; tests fix the ids.", "anchors": ["src/generic/RadioStateMachine.cpp: PerformMasterElection"]}
{"id": "C42", "title": "Tick runs the radio once the first time and twice afterwards", "statement": "The first Tick equals one radio tick, every later Tick equals two consecutive radio ticks, in every history.", "quantifier": "every history", "why_tests_cant": "Unbounded histories.", "anchors": ["src/generic/RadioStateMachine.cpp: Tick"]}
{"id": "C43", "title": "Mirroring", "statement": "For every strip length n >= 1 and LED i < n, mirroring yields length ceil(n/2) and an index below it, LEDs i and n-1-i get the same index, the first half keeps its index, and every index below the new length is hit. For n = 0 it divides by zero.", "quantifier": "every length 1..255 and every index", "why_tests_cant": "Symmetry for all lengths and indices, and an undefined case.", "anchors": ["lib/math/Math.cpp: MirrorIndex"]}
{"id": "C44", "title": "Position on a circle", "statement": "For i < n the angle is monotone in i, starts at 0 and stays below 255. The radius is proportional to n only for n <= 50; from 51 LEDs on the 8-bit result wraps (51 LEDs get radius 3).", "quantifier": "every length and index", "why_tests_cant": "Wrap depends on the length; devices in the list exceed 50.", "anchors": ["lib/math/Math.cpp: GetPosOnCircle"]}
{"id": "C45", "title": "Threshold sine", "statement": "For every phase and threshold the result is between 0 and 255, it is 0 exactly when the scaled sine does not exceed the threshold by a whole step, and it is monotone in the sine and antitone in the threshold.", "quantifier": "every 16-bit phase, every threshold, every sine implementation with range -32767..32767", "why_tests_cant": "2^24 combinations and an external sine.", "anchors": ["lib/effect/Effect.cpp: Effect::GetThresholdSin"]}
{"id": "C46", "title": "Palette lookup wraps", "statement": "Looking up colour i in a non-empty palette returns colour i mod size; it never fails for a non-empty palette and is undefined for an empty one.", "quantifier": "every palette and index", "why_tests_cant": "All palettes.", "anchors": ["lib/color/ColorPalette.cpp: GetColor"]}
{"id": "C47", "title": "Gradient hits palette colours", "statement": "For a palette of n colours (2..255, wrapping; 2..256 not wrapping) the gradient at k times the segment length is exactly colour k mod n.", "quantifier": "every palette, every k, both wrap modes", "why_tests_cant": "All palettes and positions.", "anchors": ["lib/color/ColorPalette.cpp: GetGradient"]}
{"id": "C48", "title": "Gradient stays between neighbouring colours", "statement": "For every position the saturation and value lie between those of the two neighbouring palette colours and move monotonically from one to the other; for neighbouring hues less than 127 apart the hue lies between them too.", "quantifier": "every palette of 1..255 colours, every position", "why_tests_cant": "All palettes and 65536 positions each.", "anchors": ["lib/color/ColorPalette.cpp: GetGradient"]}
{"id": "C49", "title": "Gradient hue takes the short way round", "statement": "For neighbouring hues 127 or more apart the hue travels the other way round through 255/0 on a circle of 255 steps: it never lies strictly between the two hues, and its distance travelled is at most 255 - |difference|.", "quantifier": "every pair of hues and every position", "why_tests_cant": "All hue pairs and positions.", "anchors": ["lib/color/ColorPalette.cpp: GetGradient"]}
{"id": "C50", "title": "Wrapping gradient closes", "statement": "The documented claim that with wrapping the colour at position 65535 equals the colour at position 0 is false: for the two-colour palette {hue 0, hue 192} the hue is 255 instead of 0. It holds exactly (all palettes) when the palette size divides 65535, and for palettes of at most 17 colours the only possible difference is hue 255 in place of hue 0.", "quantifier": "every palette", "why_tests_cant": "Documented claim for all palettes; fails only for particular hue pairs.", "anchors": ["lib/color/ColorPalette.hpp: GetGradient comment", "lib/color/ColorPalette.cpp: GetGradient"]}
{"id": "C51", "title": "Effect table layout", "statement": "For any sequence of effect registrations whose total is below 256, the effect with proportion p occupies exactly p consecutive indices in registration order, non-random effects occupy one index each after all random ones, and effect lookup never fails (device: any index, host: any index below the total, abort otherwise).", "quantifier": "every sequence of registrations, every index", "why_tests_cant": "All registration sequences.", "anchors": ["lib/led_manager/LedManager.cpp: AddEffect, GetEffect, GetNumEffects"]}
{"id": "C52", "title": "Unique effect numbering", "statement": "Numbers below the number of registrations map one-to-one to indices of distinct registered effects: random effects first, then non-random ones, each in registration order.", "quantifier": "every sequence of registrations with total below 256", "why_tests_cant": "All registration sequences.", "anchors": ["lib/led_manager/LedManager.cpp: UniqueEffectNumberToIndex, GetNumUniqueEffects"]}
{"id": "C53", "title": "Effects are freed exactly once", "statement": "Destroying the LED manager releases every registered effect exactly once, however the registrations with positive proportion were interleaved.", "quantifier": "every registration sequence", "why_tests_cant": "Double free is undefined behaviour; all sequences.", "anchors": ["lib/led_manager/LedManager.cpp: ~LedManager, AddEffect"]}
{"id": "C54", "title": "Strip flags", "statement": "A flag is reported as set exactly when it was given at construction, for every list of flags in any order with repetitions.", "quantifier": "every list of flags", "why_tests_cant": "All lists.", "anchors": ["lib/device/StripDescription.cpp: StripDescription, FlagEnabled"]}
{"id": "C55", "title": "Rendering reaches every LED with the right colour", "statement": "For every device with at most 255 LEDs in total, every effect, palette and time, running the effect sets every LED of the device exactly once per strip order: LED j of a strip shows the effect's colour at position j (mirrored position when the strip is reversed), black when the strip is off, one eighth when dim.", "quantifier": "every device description, every effect function, every time", "why_tests_cant": "All devices and effects.", "anchors": ["lib/led_manager/LedManager.cpp: RunEffect"]}
{"id": "C56", "title": "LED buffer safety", "statement": "No rendering writes outside the LED buffer exactly when the device has at most 255 LEDs in total; with more, the 8-bit count truncates and some write is out of bounds or hits the wrong LED.", "quantifier": "every device description", "why_tests_cant": "Undefined behaviour; all devices.", "anchors": ["lib/led_manager/LedManager.cpp: RunEffect", "src/arduino/FastLedManager.cpp: SetLed", "lib/device/DeviceDescription.cpp: GetLedCount"]}
{"id": "C57", "title": "Palette index from the air is unchecked", "statement": "Rendering a set-effect packet whose palette index is not below the number of palettes is undefined behaviour; such a packet is accepted from the radio by every node.", "quantifier": "every packet with palette index 22..255", "why_tests_cant": "Undefined behaviour.", "anchors": ["lib/led_manager/LedManager.cpp: RunEffect", "lib/effect/*.cpp: palettes()[...]"]}
{"id": "C58", "title": "Effects never trap on valid input", "statement": "For every strip of 1..255 LEDs, every LED index of it, every time, every flag combination and every valid palette index no effect performs an undefined operation (division by zero, out-of-range access, oversized shift), with the single exception of the firefly effect on controller strips of more than 32 LEDs.", "quantifier": "every effect, strip, LED, time, palette", "why_tests_cant": "Undefined behaviour over a huge input space.", "anchors": ["lib/effect/*.cpp: GetRGB"]}
{"id": "C59", "title": "Nodes in sync show the same", "statement": "Two nodes with the same device, the same current effect packet and the same network time show the same colours on all LEDs, for all effects without per-node random offset; nodes with equal offsets agree for the others as well.", "quantifier": "every packet, time, device", "why_tests_cant": "Network-wide claim over all effects.", "anchors": ["lib/led_manager/LedManager.cpp: RunEffect, GetCurrentEffect", "lib/effect/*.cpp"]}
{"id": "C60", "title": "Fixed-colour effects", "statement": "The dark effect is black everywhere always; the control effect shows exactly the packet's colour on every LED; the colour cycle shows one colour on all LEDs of a strip at a time.", "quantifier": "every LED, strip, time, packet", "why_tests_cant": "All inputs.", "anchors": ["lib/effect/DarkEffect.cpp", "lib/effect/ControlEffect.cpp", "lib/effect/ColorCycleEffect.cpp"]}
{"id": "C61", "title": "Firefly devices blink together in the sync phase", "statement": "During the synchronised third of the firefly period the colour is independent of the device's random offset; in the other phases the offset applied grows/shrinks linearly from 0 to the full offset. On the controller's strip odd LEDs are dark and even ones have fixed offsets: 210, 328, 288 and 128 ms for the first four, none for the others.", "quantifier": "every two offsets, every time", "why_tests_cant": "All offset pairs and times.", "anchors": ["lib/effect/FireflyEffect.cpp"]}
{"id": "C62", "title": "Spark tail stays within its brightness table", "statement": "For every strip and time the spark effect indexes its 8-entry tail table in range and lights at most 8 adjacent virtual positions.", "quantifier": "every strip, LED and time", "why_tests_cant": "All times 2^32.", "anchors": ["lib/effect/SparkEffect.cpp"]}
{"id": "C63", "title": "Pride stripes wrap wrongly", "statement": "The fade into a stripe starts from the colour of the preceding stripe for stripes 1..5, but for stripe 0 it starts from stripe 3's colour instead of stripe 5's.", "quantifier": "every strip and time", "why_tests_cant": "Depends on 8-bit wrap of index -1 modulo 6.", "anchors": ["lib/effect/PrideEffect.cpp"]}
{"id": "C64", "title": "Random changes never pick a special effect", "statement": "With the built-in effect table, the effect numbers a master can pick at random are exactly the 27 indices of ordinary effects; dark, palette display, blink, stop light and swinging lights indices (27..34) are reachable only by explicit packets.", "quantifier": "every random draw, both builds", "why_tests_cant": "All draws.", "anchors": ["lib/led_manager/LedManager.cpp: LedManager::LedManager, AddEffect, GetNumEffects", "src/generic/RadioStateMachine.cpp: handleMasterEvent"]}
{"id": "C65", "title": "Controller: what is sent is what was selected", "statement": "Whatever the history of button presses and mode switches since power-up: the effect and palette selections stay in range and depend only on the net number of forward steps taken in effect mode (a step back undoes a step forward); when send is pressed in effect mode, and the previous pass was in effect mode too, the controller transmits exactly one packet of its own accord, which asks for the effect (net steps mod 19), the palette (net steps mod 22) and a hold of 60 s; in effect mode nothing is sent without send being pressed.", "quantifier": "every sequence of passes, buttons, mode switch positions, radio traffic", "why_tests_cant": "Unbounded sequences of presses in three modes.", "anchors": ["src/devices/controller/controller.cpp: RunEffectMode, loop"]}
{"id": "C66", "title": "Controller display mapping", "statement": "The 36 display positions (3 rows of 12) map one-to-one onto LEDs 0..38 except 7, 8, 9: left to right in the top row around the status LEDs, right to left in the middle row, left to right in the bottom row; a display write changes exactly the LED of its position and never a status or button LED.", "quantifier": "every display position, every colour, every picture", "why_tests_cant": "Injectivity over the domain.", "anchors": ["src/devices/controller/leds.cc: SetMainLed"]}
{"id": "C67", "title": "Battery cut-off has hysteresis", "statement": "Once a reading falls below the low threshold the node stays off until a reading exceeds the resume threshold; between the thresholds it keeps its previous mode; for every sequence of readings the mode switches at most once per crossing.", "quantifier": "every sequence of readings", "why_tests_cant": "Unbounded sequences.", "anchors": ["src/devices/fancy-node/fancy-node.cc: loop", "lib/battery/Battery.hpp"]}
{"id": "C68", "title": "Stored device survives power loss while writing", "statement": "If power fails after any number of bytes of the device record have been written to erased flash, the next start either finds the complete record or falls back to the built-in device; it never uses a partial record.", "quantifier": "every crash point, every record", "why_tests_cant": "Crash points cannot be injected on the host.", "anchors": ["src/devices/node/node.cpp: WriteDeviceToFlash, ReadDeviceFromFlash", "lib/device/DeviceDescription.hpp: kCheckValue"]}
{"id": "C69", "title": "Animations repeat and survive clock wrap", "statement": "Colour cycle, contrast bumps and rainbow repeat every 4096 ms, rainbow bumps every 20480 ms, swinging lights every 5000 ms, stop light every 16384 ms, on every strip and LED. The ones with a power-of-two period run on smoothly when the 32-bit network time wraps; swinging lights jump.", "quantifier": "every time, strip, LED, palette", "why_tests_cant": "Long running times (49 days) and all strips.", "anchors": ["lib/effect/ColorCycleEffect.cpp", "lib/effect/RainbowEffect.cpp", "lib/effect/ContrastBumpsEffect.cpp", "lib/effect/RainbowBumpsEffect.cpp", "lib/effect/SwingingLights.cpp", "lib/effect/StopLightEffect.cpp"]}
{"id": "C70", "title": "Mirrored strips are symmetric", "statement": "On a strip with the Mirrored flag the first LED shows what the last shows, the second what the last but one shows, and so on, for contrast bumps, rainbow bumps, spark, swinging lights, and fire on non-circular strips.", "quantifier": "every mirrored strip of 1..255 LEDs, every LED, time, palette", "why_tests_cant": "All strips and times.", "anchors": ["lib/math/Math.cpp: MirrorIndex", "lib/effect/*.cpp: GetRGB"]}
{"id": "C71", "title": "Rorschach is symmetric about the middle", "statement": "The rorschach effect shows the same colour at equal distances left and right of the middle LED, on every strip at every time.", "quantifier": "every strip, distance, time, palette, offset", "why_tests_cant": "All inputs.", "anchors": ["lib/effect/RorschachEffect.cpp: GetRGB"]}
{"id": "C72", "title": "Stop light sequence", "statement": "The stop light shows green for 8192 ms, then amber for 2048 ms, then red for 6144 ms, for ever; on longer strips each LED belongs to at most one lamp and at every moment exactly the LEDs of the current lamp are at full brightness, those of the other lamps dimmed. On the controller's strip all three lamps are lit all the time, each on its fifth.", "quantifier": "every strip, LED and time", "why_tests_cant": "All strips and times.", "anchors": ["lib/effect/StopLightEffect.cpp: GetRGB"]}
{"id": "C73", "title": "Blink effects", "statement": "The four blink effects are lit for the first third of every 3*speed ms (speeds 60, 30, 12, 300), then all LEDs show one colour of the palette's gradient (half value on strips that are not Bright), and dark for the rest.", "quantifier": "every LED, strip, time, palette", "why_tests_cant": "All times.", "anchors": ["lib/effect/SimpleBlinkEffect.cpp: GetRGB", "lib/led_manager/LedManager.cpp: LedManager::LedManager"]}
{"id": "C74", "title": "Palette display", "statement": "The palette display effect stands still on strips with at least as many LEDs as the palette has colours, its first LED shows the first colour, and LED j shows the palette's gradient at the fraction j/length.", "quantifier": "every such strip, LED, time, palette", "why_tests_cant": "All strips and palettes.", "anchors": ["lib/effect/DisplayColorPaletteEffect.cpp: GetRGB"]}
{"id": "C75", "title": "Controller colour mode", "statement": "In colour mode the display shows six colours, five LEDs beside each button with a dark gap between left and right, whatever was shown before; pressing a button transmits the colour shown beside it, for 60 s, and every node then shows exactly that colour; without a press nothing is sent.", "quantifier": "every history, every combination of pressed buttons", "why_tests_cant": "Unbounded histories, all button combinations.", "anchors": ["src/devices/controller/controller.cpp: RunColorMode"]}
{"id": "C76", "title": "Controller can send a stale packet", "statement": "Finding: the restriction in C65 is needed. If send is pressed in the first pass after power-up, an all-zero packet of type heartbeat is handed to the radio; in the first effect-mode pass after palette mode, a packet for effect 0, palette 13, 1 s is sent, whatever was selected.", "quantifier": "every history ending that way", "why_tests_cant": "The packet is filled after the button is handled, so only the first pass is affected.", "anchors": ["src/devices/controller/controller.cpp: RunEffectMode, RunPaletteMode"]}
{"id": "C77", "title": "Controller palette mode", "statement": "In palette mode a pressed button transmits the effect the network currently shows with the palette belonging to the button (8 to 13), for 60 s. The left blocks show their palette as on a five-LED strip; finding: the right blocks are shifted by one LED, so they do not start with the palette's first colour.", "quantifier": "every history, every combination of pressed buttons, every time", "why_tests_cant": "Unbounded histories.", "anchors": ["src/devices/controller/controller.cpp: RunPaletteMode"]}
{"id": "C78", "title": "Controller button lamps", "statement": "In every mode the left and bottom lamps, and in palette mode the right lamps, show the pressed button at full brightness, the other usable buttons at a glow and buttons without a function dark. Finding: in effect and colour mode the second and third right lamp follow the left buttons instead.", "quantifier": "every history, every combination of pressed buttons", "why_tests_cant": "All button combinations after all histories.", "anchors": ["src/devices/controller/controller.cpp: RunEffectMode, RunColorMode, RunPaletteMode", "src/devices/controller/buttons.cc"]}
{"id": "C79", "title": "Controller never traps", "statement": "Whatever buttons, mode switch, clock and radio traffic do, no pass of the controller's main loop reads or writes out of bounds, divides by zero, or otherwise fails; the loop runs for ever.", "quantifier": "every sequence of passes, every radio traffic", "why_tests_cant": "Unbounded sequences.", "anchors": ["src/devices/controller/controller.cpp: loop"]}
{"id": "C80", "title": "Controller preview", "statement": "After each pass in effect mode the top row shows, LED by LED, what the packet that send would transmit next shows on a bright 12-LED controller strip, the middle row its palette, and the status LEDs the role and whether a packet was just sent.", "quantifier": "every history ending in effect mode", "why_tests_cant": "Unbounded histories.", "anchors": ["src/devices/controller/controller.cpp: RunEffectMode"]}
{"id": "C81", "title": "Battery colour at start-up", "statement": "During the first 20 s after power-up the board LED of a device with other than one LED shows the charge measured at start-up as a hue between red and green: red at or below 3.7 V, never decreasing with the voltage below 4.2 V, almost pure green from 4.19 V; afterwards it is dark. Finding: just above 4.2 V the hue falls back to red, so an overfull battery looks empty.", "quantifier": "every raw reading, every run of the main loop", "why_tests_cant": "All readings and all histories; the hue depends on rounding of floating-point thresholds and on unsigned wrap-around.", "anchors": ["src/devices/fancy-node/fancy-node.cc: loop, setup, BatteryVoltageToRawReading"]}
{"id": "C82", "title": "Controller's low-battery light", "statement": "In the first pass after recovery in effect mode the status LED shows the role again. Finding: in colour and palette mode it keeps showing the dim red of the low-battery warning, unless the mode switch was moved meanwhile.", "quantifier": "every history of the controller ending in a recovery", "why_tests_cant": "Unbounded histories.", "anchors": ["src/devices/controller/controller.cpp: loop, LowBatteryMode, RunColorMode, RunPaletteMode"]}
{"id": "C83", "title": "DMX gateway transmits the console's colour", "statement": "After every pass of the DMX gateway the last packet on the air carries exactly the colour the console shows, with a hold time of 5 s (or the console has been black since power-up and nothing was sent yet). A change of colour is sent in the very pass that sees it. While the 32-bit clock has not wrapped, an unchanged colour is repeated exactly when the last packet is more than 1000 ms old.", "quantifier": "every sequence of passes with arbitrary times and colours", "why_tests_cant": "Unbounded sequences of passes.", "anchors": ["src/devices/dmx/dmx.cpp: loop"]}
{"id": "C84", "title": "DMX gateway around the clock wrap", "statement": "Finding: if a packet goes out exactly 1001 ms before a wrap of the 32-bit clock, the gateway never repeats it, for ever, until the console changes its colour; if one goes out in the last second before the wrap, every further pass before the wrap sends.", "quantifier": "every sequence of passes, every wrap", "why_tests_cant": "Needs 49 days of running time, and the claim is about all later passes.", "anchors": ["src/devices/dmx/dmx.cpp: loop"]}
{"id": "C85", "title": "DMX gateway's packet numbers", "statement": "The gateway's packets are numbered 0, 1, 2, ... and start again after 65535. A freshly started node that hears only the gateway accepts every one of its packets except the very first, over any number of wraps of the id. Finding: that first packet is always dropped, because the cache of recent ids starts out full of zeros.", "quantifier": "every sequence of passes, any length", "why_tests_cant": "The id wraps after 65536 packets; the receiver's cache is a moving window.", "anchors": ["src/devices/dmx/dmx.cpp: loop", "src/generic/NetworkManager.cpp: receive"]}
{"id": "C86", "title": "A fed master keeps the colour", "statement": "As long as a master keeps accepting colour or effect packets such that at every moment the latest is at most d seconds old, and each asks to be held for at least d seconds, it never changes the effect by itself. (The DMX gateway's packets ask for 5 s and come about every second.)", "quantifier": "every history of a master before the clock wraps", "why_tests_cant": "All interleavings of packets, heartbeats and ticks.", "anchors": ["src/generic/RadioStateMachine.cpp: handleMasterEvent", "src/devices/dmx/dmx.cpp: loop"]}
{"id": "C87", "title": "Start-up animation shows every LED", "statement": "On a device with 2 to 255 LEDs the start-up animation lights every LED white, one at a time in order, then shows every hue once on the last LED, then lights the LEDs in reverse order, and leaves all LEDs dark; the board's own LED stays dark; it takes between 1.2 s and 7 s. With a single LED, the board's own LED shows the same. Finding: a device described with 0 or exactly 256 LEDs divides by zero instead.", "quantifier": "every device description", "why_tests_cant": "All LED counts; needs LED hardware.", "anchors": ["src/arduino/FastLedManager.cpp: FastLedManager, PlayStartupAnimation, SetLed", "lib/device/DeviceDescription.cpp: GetLedCount"]}
{"id": "C88", "title": "Watchdog", "statement": "A node keeps running exactly as long as the first seven passes of its main loop together, and then each further six, take less than the watchdog's period. So with 128 ms, passes of at most 18 ms never cause a reset, however many there are; a single pass of 128 ms always does.", "quantifier": "every sequence of pass durations", "why_tests_cant": "Unbounded running time; needs the watchdog hardware.", "anchors": ["src/devices/node/node.cpp: loop, FeedWatchdog, setup"]}
{"id": "C89", "title": "A node keeps showing", "statement": "A plain node, on any device description with 1 to 255 LEDs and no controller strip (every device in the device list qualifies), never traps or touches memory it should not, however long it runs and whatever packets of whatever type, length and content arrive - as long as set-effect packets name existing palettes; after every pass of its main loop the LEDs show the complete picture of the current effect, each LED at the network time of its moment. Finding: one set-effect packet that names palette 22 or higher is enough to make the very pass that receives it undefined.", "quantifier": "every device, sequence of passes, sequence of packets and clock readings", "why_tests_cant": "Unbounded running time and all packet contents; needs the radio and LEDs.", "anchors": ["src/devices/node/node.cpp: setup, loop", "lib/device/Devices.hpp", "src/generic/RadioStateMachine.cpp: Tick", "lib/led_manager/LedManager.cpp: RunEffect"]}
{"id": "C90", "title": "Every effect has an origin", "statement": "In a network of any number of nodes that starts from power-up, and whose radio delivers only what some node transmitted, every order a node shows and every order anybody transmits is either the power-up order (effect 1, palette 0) or was decided by somebody earlier: an application calling SetEffect, or a node changing the effect by itself. Neither the relaying nor the repeating invents anything.", "quantifier": "every number of nodes and every run (interleaving of calls and deliveries, with loss, duplication, reordering and delay)", "why_tests_cant": "Unbounded number of nodes and steps.", "anchors": ["src/generic/RadioStateMachine.cpp: handleMasterEvent, handleSlaveEvent, SetEffect", "src/generic/NetworkManager.cpp: receive, send"]}
{"id": "C91", "title": "A network left to itself keeps its pictures", "statement": "If, in such a network, the applications announce between 1 and 22 palettes and ask only for palettes that exist, then no node ever shows a palette that does not exist, so every node can completely draw what it is to show at every moment, on any device description with 1 to 255 LEDs.", "quantifier": "every number of nodes, every run, every device", "why_tests_cant": "Combines the protocol and the drawing code over unbounded runs.", "anchors": ["src/generic/RadioStateMachine.cpp: SetEffect, SetNumPalettes", "lib/led_manager/LedManager.cpp: RunEffect, GetCurrentEffect"]}
{"id": "C92", "title": "One master for ever", "statement": "In a network of N nodes in which one node sends a heartbeat while the others are slaves (it has just taken over or has been master for any time), and in which the master gets a free tick at least every P ms and its heartbeats reach everybody within D ms (1000 + P + D <= 5000), no other node becomes master and the master never steps down, as long as nobody takes over within the first D ms after that heartbeat and the master's own packets come back to it only while it remembers them. Finding: without the last condition a master can lose its role to its own heartbeat.", "quantifier": "every number of nodes, every run up to the wrap of the clock", "why_tests_cant": "Unbounded runs of unboundedly many nodes.", "anchors": ["src/generic/RadioStateMachine.cpp: handleMasterEvent, handleSlaveEvent, RadioTick", "src/generic/NetworkManager.cpp: receive"]}
{"id": "C93", "title": "A newcomer catches up", "statement": "A master that gets a free tick at least every P <= 1000 ms announces its effect at least every 2000 + 2P ms. So a node that joins, and whose radio delivers the announcements within D ms, shows what the master shows at most 2000 + 2P + D ms later, and keeps showing it until it hears of another effect.", "quantifier": "every pair of histories before the clock wraps, every clock offset", "why_tests_cant": "All interleavings of heartbeats, announcements and foreign packets.", "anchors": ["src/generic/RadioStateMachine.cpp: handleMasterEvent, handleSlaveEvent"]}
{"id": "C94", "title": "Noise has no jumps", "statement": "The noise behind the fire, lightning and Rorschach effects changes by at most 16 (of 255) between neighbouring points and at most 28 diagonally, everywhere: also at the edges of its tiles and where the 32-bit coordinates wrap. So a fire LED moves at most a sixteenth of the way along the flame colours per millisecond, and a one-colour Rorschach LED changes its brightness by at most 28, even when the clock wraps. The noise repeats every 2^24 units. (The tolerance of 8 of the project's own test does not hold everywhere.)", "quantifier": "every point of the 2^64 points, every random generator, every strip, time and start offset", "why_tests_cant": "The test samples 255 random points; the bound is needed at all of them.", "anchors": ["lib/math/Perlin.hpp: perlinNoise, perlinNoisePolar", "lib/effect/FireEffect.cpp: GetRGB", "lib/effect/RorschachEffect.cpp: GetRGB", "test/PerlinTest.cpp"]}
{"id": "C95", "title": "A settled network shows one animation", "statement": "One node sends a heartbeat as master while the others are slaves; it gets a free tick at least every P <= 1000 ms, and its heartbeats and announcements reach every other node within D ms, 1000 + P + D <= 5000, and nodes accept only what another node originated at most D ms ago. If the master shows one effect or colour from global time x on and nobody orders another, then from 2000 + 2P + 2D ms later on every node shows it, and every node's network time is the master's minus a constant lag of at most D ms. So every node computes at time T + L exactly the picture that the master computes at time T.", "quantifier": "every number of nodes, every interleaving, every clock offset, every random source; until a clock wraps", "why_tests_cant": "All interleavings of all nodes' calls with all deliveries; combines election, time and effects.", "anchors": ["src/generic/RadioStateMachine.cpp: handleMasterEvent, handleSlaveEvent", "src/generic/NetworkManager.cpp: receive", "lib/effect/*: GetRGB"]}
{"id": "C96", "title": "An order is obeyed everywhere for its hold time", "statement": "In a network with a settled master as in C95, an effect is ordered (SetEffect) at any node and nobody orders another. If the order reaches the master within D ms, then from 2000 + 2P + 3D ms after the order until its hold time is over every node shows it, also nodes that missed the order itself. With hold time zero that holds for ever, unless the order is given at the master itself.", "quantifier": "every number of nodes, every interleaving, every clock offset, every random source; until 255 s before a clock wraps", "why_tests_cant": "All interleavings of orders with stale announcements, heartbeats and automatic changes of the master.", "anchors": ["src/generic/RadioStateMachine.cpp: SetEffect, handleMasterEvent, handleSlaveEvent"]}
{"id": "C97", "title": "A fancy node after an exhausted battery", "statement": "The program of a battery-powered node never traps, whatever the battery does and the radio delivers (palettes that do not exist excepted); after every pass it shows either the two dim red LEDs of an exhausted battery or the complete picture of the current effect. The LED on its board is dark, except in the first 20 seconds when a button was held at start-up. Its radio logic behaves as if the main loop stood still while the battery is exhausted. Finding: when it returns after more than seven seconds it is master at once and sends heartbeats, whoever else is master; after more than a minute it also changes the effect of the whole network at once.", "quantifier": "every number of passes, every sequence of battery readings, packets and clock values below the wrap", "why_tests_cant": "Combines battery supervision, radio logic and drawing over unbounded runs; the outage must be longer than the timers.", "anchors": ["src/devices/fancy-node/fancy-node.cc: setup, loop, LowBatteryMode", "src/generic/RadioStateMachine.cpp: Tick, handleSlaveEvent"]}
{"id": "C98", "title": "Rainbow", "statement": "In the rainbow effect the whole palette is spread over 32 LEDs and moves one LED per 128 ms towards the start of the strip: what an LED shows now its predecessor shows 128 ms later. With palettes of several colours the brightness is steady (255 on bright strips, else 128); with one colour the brightness runs through a wave instead. Tiny strips show one colour on all LEDs. Finding: with a one-colour palette a tiny strip does not move at all.", "quantifier": "every palette, strip, LED and 32-bit time; every sine, gradient and colour conversion meeting FastLED's contract", "why_tests_cant": "32-bit times times strips times palettes; the claim relates pictures at different times.", "anchors": ["lib/effect/RainbowEffect.cpp: GetRGB"]}
{"id": "C99", "title": "Colour cycle", "statement": "In the colour cycle effect all LEDs of all strips with the same brightness setting show the same colour; it goes once around the palette in 4096 ms, or swells and fades when the palette has one colour.", "quantifier": "every palette, strip, LED and 32-bit time", "why_tests_cant": "32-bit times times palettes times strips.", "anchors": ["lib/effect/ColorCycleEffect.cpp: GetRGB"]}
{"id": "C100", "title": "Bumps", "statement": "Contrast bumps shows at any moment exactly two colours, a quarter of the palette apart: a dim ground (brightness 64) and humps (brightness 96 to 223) which run towards the start of the strip, one LED in 384 ms. Rainbow bumps lays the palette along the strip with humps of brightness running towards the end, one LED in 384 ms. On circular strips one hump spans the circle; on mirrored strips positions count from the nearer end.", "quantifier": "every palette, strip, LED and 32-bit time", "why_tests_cant": "32-bit times times strips times palettes; the claim relates pictures at different times.", "anchors": ["lib/effect/ContrastBumpsEffect.cpp: GetRGB", "lib/effect/RainbowBumpsEffect.cpp: GetRGB", "lib/effect/Effect.cpp: GetThresholdSin"]}
{"id": "C101", "title": "Fire, lightning and Rorschach colours", "statement": "Fire shows only hues from red to yellow (0 to 35), saturated, with brightness 8 to 192, whatever palette is asked for. A lightning LED is black or flashes with a brightness above 160 in a colour of the palette. Rorschach shows the palette's only colour with the noise as brightness, or the palette from its first to its last colour.", "quantifier": "every random generator, start offset, strip, LED and 32-bit time", "why_tests_cant": "The noise is pseudo-random over 2^64 points; a test samples a few.", "anchors": ["lib/effect/FireEffect.cpp: GetRGB", "lib/effect/LightningEffect.cpp: GetRGB", "lib/effect/RorschachEffect.cpp: GetRGB"]}
{"id": "C102", "title": "Swinging lights", "statement": "The swinging lights effect has as many lights as the palette has colours; each swings over the strip in a sine of 5 s, evenly spread over the period. An LED shows the saturating sum of what the lights throw on it: full colour where a light stands, falling off linearly to nothing a fifth of the strip away. An LED no light is near is black; one at which a light stands is at least as bright as the light in every channel.", "quantifier": "every palette, strip, LED and 32-bit time", "why_tests_cant": "32-bit times times palettes times strips.", "anchors": ["lib/effect/SwingingLights.cpp: GetRGB, addInPlace"]}
{"id": "C103", "title": "Police lights", "statement": "The police effect (not registered by default) has on ordinary strips of at least 27 positions a red bar at the start and a blue bar at the end, flashing 60 or 56 ms on and off, outer and inner half in turn, and darkness between them. On the controller the first third blinks red and then the last third blue, never both. Tiny strips show red and blue in turn. Finding: the blue bar is one LED shorter than the red one.", "quantifier": "every strip, LED and 32-bit time", "why_tests_cant": "32-bit times times strips.", "anchors": ["lib/effect/PoliceEffect.cpp: GetRGB", "lib/effect/PoliceEffect.hpp"]}
{"id": "C104", "title": "How a network starts", "statement": "N nodes are powered up at various times, with nothing on the air but what they transmit. Each waits 5 to 7 seconds (5 s and the first number of its random source modulo 2 s); a node that has heard no master takes over exactly at its first packet-free radio tick after that. If the wait of node m ends first, by more than P + D ms, where m looks at its timers every P ms and its heartbeats reach everybody within D ms, then m takes over within P ms of that moment, there is no master before, and m is the only master from then on. Finding: without the margin two nodes may become master at the same time.", "quantifier": "every number of nodes, power-up times, clock offsets, random sources and runs of any length (49 days)", "why_tests_cant": "Needs all interleavings of any number of nodes from power-up on; unit tests run one node with a fake radio.", "anchors": ["src/generic/RadioStateMachine.cpp: RadioStateMachine, beginSlave, Tick"]}
{"id": "C105", "title": "From power-up to one animation", "statement": "A network powered up as in C104, to whose nodes nobody gives orders: at any time t at which the master has not picked a new effect for 2000 + 2P + 2D ms there is exactly one master, and every other node draws, on any strip, exactly the picture the master draws on that strip, at most D ms later (the five effects with a random offset per node excepted). P bounds how often the master looks at its timers, D how long packets travel.", "quantifier": "every number of nodes, power-up times, clock offsets, random sources, strips, picture times and runs of any length (49 days)", "why_tests_cant": "An end-to-end statement over all interleavings of any number of nodes, from power-up to LED colours.", "anchors": ["src/generic/RadioStateMachine.cpp: RadioStateMachine, Tick, GetNetworkMillis", "lib/led_manager/LedManager.cpp: RunEffect"]}
{"id": "C106", "title": "No orders, no starvation", "statement": "In a network powered up as in C104 to whose nodes nobody gives orders, the node that becomes master never accepts a packet, before or after it takes over, so its timers are never starved (compare C21). Hence C105 needs only that the radio of that node is ticked every P ms, whatever the other nodes transmit or relay.", "quantifier": "every number of nodes, power-up times, clock offsets, random sources and runs of any length (49 days)", "why_tests_cant": "Needs all interleavings of any number of nodes.", "anchors": ["src/generic/RadioStateMachine.cpp: Tick, RadioTick, handleMasterEvent", "src/generic/NetworkManager.cpp: receive"]}
{"id": "C107", "title": "Resistor-ladder buttons", "statement": "The three buttons on one analogue pin: a press of button k is reported in exactly the tick in which the filtered input is stable and in the band of button k while the last stable input was not (idle before the first). Hence unstable inputs report nothing, so passing through another button's band on the way does not press it; never two buttons in one tick; a button held is reported once, and only again after a stable input outside its band.", "quantifier": "every sequence of filtered values and stability verdicts", "why_tests_cant": "Sequences of readings are unbounded.", "anchors": ["src/devices/controller/analog-button.cpp: Tick, ReadAnalog, Button1Pressed", "src/devices/controller/analog-button.h"]}
{"id": "C108", "title": "The radio of the unit tests", "statement": "The fake radio delivers the packet the test has chosen, with all bytes behind its data zeroed, at every read until the test chooses another one, and nothing if it chose none. The test gets the packet sent last since it last looked, in a heap object of its own, and nothing if none was sent. No packet is handed out twice, sending and destruction never touch a dead object as long as the test deletes only what it was given, and after destruction nothing is left that the test was not given.", "quantifier": "every sequence of calls, including creation, change and deletion of packets by the test", "why_tests_cant": "All unit tests stand on it; none tests it.", "anchors": ["lib/fake-radio/FakeRadio.cpp: readPacket, sendPacket, setReceivedPacket, getSentPacket, ~FakeRadio"]}
{"id": "C109", "title": "Fail-over: when the master disappears exactly one node takes its place", "statement": "A network of N nodes none of which is master, whatever happened before (the old master was switched off, or its packets no longer arrive). Each node has a moment, fixed by what it has seen and drawn so far, between 5000 and 6999 ms after it was switched on, last heard a heartbeat or a claim, or stepped down, whichever was last. If the moment of node m comes first by more than P + D ms, then m takes over within P ms of that moment, nobody is master before and nobody else ever after; and without orders m is never starved and, once it has not picked a new effect for 2000 + 2P + 2D ms, all nodes draw its animation at most D ms late. Taking over is seamless: the node keeps the effect, the palette and the network time it had as a slave.", "quantifier": "every number of nodes, every past of every node, clock offsets, random sources, strips and runs of any length (49 days)", "why_tests_cant": "Needs all pasts and all interleavings of any number of nodes.", "anchors": ["src/generic/RadioStateMachine.cpp: Tick, handleSlaveEvent, beginMaster, GetNetworkMillis", "lib/led_manager/LedManager.cpp: RunEffect"]}
{"id": "C110", "title": "Two networks that meet become one", "statement": "Networks with a master each come into range of each other. While a node m that everybody can hear within D ms stays master, nobody becomes master later than D ms after its first heartbeat, so masters can only become fewer; and another node stays master only as long as it wins an election against m, with a fresh random number each time, at least once in every 1000 + P + D ms. Once the others are slaves, m is the only master from then on, and when it has shown one effect for 2000 + 2P + 2D ms every node draws its animation at most D ms late, whatever the pasts, effects and clocks of the networks were.", "quantifier": "every number of nodes and of masters, every past, clock offset, random source, strip and interleaving (until a clock wraps)", "why_tests_cant": "Needs all pasts and all interleavings of any number of nodes; tests have one node.", "anchors": ["src/generic/RadioStateMachine.cpp: handleMasterEvent, PerformMasterElection, handleSlaveEvent", "lib/led_manager/LedManager.cpp: RunEffect"]}
{"id": "C111", "title": "The console's colour on every node", "statement": "A lighting console is connected to the DMX gateway, whose passes take at most Q ms, and packets travel at most D ms, 1000 + Q + D <= 5000. When the console has shown one colour for 2 (1000 + Q) + 4 D ms, and nobody gives other orders, every node of the network, master or slave, shows it: every LED of every strip has that colour as its strip renders fixed colours, whatever the nodes showed before, and it stays so while the console keeps the colour.", "quantifier": "every number of nodes, every past, clock offset, random source, console history, strip and interleaving of passes, ticks and packets, until a clock wraps", "why_tests_cant": "Combines all interleavings of the gateway's passes with those of any number of nodes.", "anchors": ["src/devices/dmx/dmx.cpp: loop", "src/generic/RadioStateMachine.cpp: handleMasterEvent, handleSlaveEvent", "lib/led_manager/LedManager.cpp: RunEffect"]}
{"id": "C112", "title": "Networks of real radios", "statement": "The nodes have the radio driver of the devices: what a node gets is a frame another node transmitted at most D ms earlier, turned into a packet by the driver, and the frames of node m reach everybody within D ms. If the nodes are powered up as in C104 and nobody gives orders, node m, ticked every P ms, never receives anything, becomes and stays the only master, and everybody shows its animation at the same pace, at most D ms later (as in C106), although the driver loses every relay and every claim. But an order the master has received it cannot pass on: when nobody gives orders later and the others remain slaves, then after another D ms nobody accepts an order any more, and a node switched on then keeps its power-up effect as long as the master does not choose a new one, although it hears the master's heartbeats.", "quantifier": "every number of nodes, power-up times, clock offsets, random sources, frames lost to the driver, strips, and runs of any length until a clock wraps", "why_tests_cant": "The driver runs on devices only; the unit tests have a fake radio that does not lose lengths, and no network.", "anchors": ["src/arduino/RadioHeadRadio.cpp: readPacket, sendPacket", "src/generic/RadioStateMachine.cpp: RadioTick, handleMasterEvent, handleSlaveEvent", "src/generic/NetworkManager.cpp: receive, send"]}
{"id": "C113", "title": "Devices switched on together all become master", "statement": "The wait after power-up is drawn before anybody seeds the random generator, so, whatever the readings of the analogue pin used as seed, all devices wait equally long: 5000 ms plus the remainder by 2000 of the first number of the unseeded generator. A device that hears nobody takes over at its first packet-free tick after that wait and not before. Hence N devices switched on within d ms of each other, each of which finds its radio silent at least every P ms, are all masters d + P ms after the wait, if a packet takes at least d + P ms. All later random numbers are those of the generator seeded with 1024 a + b for the two readings a and b, from the second on; two readings of 0 seed nothing, and such devices all draw the same numbers.", "quantifier": "every C library generator, seed readings, number of devices, switch-on times, interleavings of their ticks, and packets", "why_tests_cant": "Host tests have no device boot order and a different random source.", "anchors": ["lib/effect/FireflyEffect.cpp: FireflyEffect", "src/generic/RadioStateMachine.cpp: RadioStateMachine, SetTimer", "src/devices/node/node.cpp: state_machine, setup", "src/devices/fancy-node/fancy-node.cc: state_machine, setup", "src/devices/controller/controller.cpp: state_machine"]}
{"id": "C114", "title": "How random the choices of a node are", "statement": "Replace the raw numbers a node draws in one call by all raw numbers below K, leaving all else as it is. When a master chooses by itself, each pair of a configured effect and a configured palette is announced by the same share of the pairs of raw numbers, up to rounding, so effect and palette are equally likely and independent (the effect it already shows included). The wait of a slave after it heard a master, or stepped down, takes each whole number of ms from 5000 to 6999 equally often. Heartbeats carry each id from 2 to 65534 equally often. A master that hears a heartbeat with id i stays master for 65534 - i of 65534 raw numbers, so over both nodes' numbers each heartbeat that reaches another master is one flip of a coin: it stays master in 65533 * 32766 of the 65533 * 65534 cases, or in at most 5 * 65534 more when ids repeat. (Figures for devices.)", "quantifier": "every history, random source, number of effects and palettes, id, and every bound K on the raw numbers", "why_tests_cant": "Needs all random numbers after all histories; tests fix the seed.", "anchors": ["src/generic/RadioStateMachine.cpp: handleMasterEvent, PerformMasterElection, SetTimer", "src/generic/NetworkManager.cpp: send", "lib/types/Types.cpp: random"]}
{"id": "C115", "title": "The pride flag", "statement": "On every strip of at least 7 LEDs that is not tiny, all six colours of the flag (red, orange, yellow, green, blue, purple, given as colour values) are visible at every moment, each pure on at least one LED. The stripes move one LED towards the start of the strip every 384 ms, and what leaves at the start comes in at the end. Tiny strips show one stripe at a time on all LEDs, for 32 ms per LED.", "quantifier": "every strip, LED and time", "why_tests_cant": "All strips and times.", "anchors": ["lib/effect/PrideEffect.cpp: GetRGB", "lib/effect/PrideEffect.hpp: palette"]}
{"id": "C116", "title": "The spark", "statement": "The spark is a head with seven fading followers; the LED d positions behind the head has the palette's colour at t/24 + 14 d 256ths. On strips with ends the head takes 3 s from the start to 8 positions beyond the end and 3 s back, whatever the length; on circles it goes round towards the start in 3 s, one position at a time. Both until time times length passes 2^32 (31 hours with 30 LEDs).", "quantifier": "every strip, LED, palette and time before the product overflows", "why_tests_cant": "All strips and times.", "anchors": ["lib/effect/SparkEffect.cpp: GetRGB"]}
{"id": "C117", "title": "The simulated network of the tests", "statement": "Whatever a test does with the simulated network (advance the clock, tick, replace a node, set the packet loss, inject packets), for every number of nodes and all random numbers: nothing undefined happens, no packet object is used after it was freed or freed twice, and after the destructor none is left. In one round every node is given the one packet that was on the air, or nothing if it is lost; without loss all nodes are given it. Each node ticks once or twice with it; then the lowest-numbered node with something to send gets the air and everybody else's last packet waits. All calls together are histories of the nodes, so what is proved of nodes and networks holds in the simulation. Refuted: that an injected packet reaches a node (it reaches nobody); that resetMaster resets the master (it resets node 0 or nobody); that without loss every packet transmitted in a round is on the air or waiting afterwards.", "quantifier": "every test, number of nodes, random source, and contents of uninitialised memory", "why_tests_cant": "It is about the harness the tests themselves rely on.", "anchors": ["test/FakeNetwork.cpp: FakeNetwork, ~FakeNetwork, Tick, reinitNode, setPacketLoss, TransmitPacket", "test/RadioIntegrationTest.hpp: getNumMasters, runTicks, resetMaster", "lib/fake-radio/FakeRadio.cpp: readPacket, sendPacket, setReceivedPacket, getSentPacket"]}
{"id": "C118", "title": "One master in the simulated network", "statement": "In the simulated network of the tests, without packet loss and with up to 900 nodes: when one node draws a shorter first wait than all others and gives its packets ids that are not 0 and not among its 24 previous ones, then everybody is a slave until that wait is over, and from the next round on exactly that node is master, in every round, however long the test goes on. So the tests electsOneMaster and stableOverTime pass for all such random numbers and not just for one seed. Refuted without either condition: two nodes with the same wait both become master, and a master that repeats its ids is joined by a second one. The second condition holds whenever the random numbers of that node differ modulo 65535 within 76 successive ones and none gives id 0.", "quantifier": "every random source with the two conditions, number of nodes, order of ticks and clock jumps before the take-over, and number of rounds after it", "why_tests_cant": "The tests try one seed and 25000 rounds.", "anchors": ["test/RadioStateIntegrationTest.cpp: electsOneMaster, stableOverTime", "test/FakeNetwork.cpp: Tick", "src/generic/RadioStateMachine.cpp: RadioTick, beginMaster, beginSlave", "src/generic/NetworkManager.cpp: receive, send"]}
{"id": "C119", "title": "The palettes have the colours they are named after", "statement": "The 22 palettes a packet can ask for are the ones their names say: eight single full colours around the colour circle, then rainbow, warm, cool, yellow-green, 80s Miami, vaporwave, white-blue, candy-cane, winter-mint, fire, pastel rainbow, jazz cup, yellow and double purp, double rainbow. The gradient of each shows its colours in order, evenly spread; no two palettes are alike. When the palette is put on display on a strip with fewer LEDs than the palette's two to four colours, all LEDs show one colour that runs through the whole palette with time.", "quantifier": "every packet that asks for a palette, position, strip, time and conversion from HSV to RGB", "why_tests_cant": "A test of one colour of one palette says nothing about the others, and the display on short strips changes with every two milliseconds.", "anchors": ["lib/effect/Effect.cpp: palettes", "lib/effect/DisplayColorPaletteEffect.cpp: GetRGB", "lib/color/ColorPalette.cpp: GetGradient"]}
{"id": "C120", "title": "A network whose master disappears elects another", "statement": "In the simulated network of the integration tests without packet loss, when nobody is master and nothing is on the air or waiting to be sent, every node has a moment at most seven seconds ahead until which it waits; if one node's moment is strictly the first and its packet ids are new to the others, nobody is master up to that moment and exactly that node is master in every round after it. When the elected master is replaced by a new node at a quiet time, the network falls into exactly this state: nobody is master, everybody still waits, the new node for at least five seconds; so after less than seven seconds there is one master again.", "quantifier": "every number of nodes up to 900, source of random numbers, test leading to the silence, round in which the master is replaced, and number of rounds after it up to the wrap of the clock", "why_tests_cant": "The integration tests replace one node in one run with one seed and look at the number of masters at the end.", "anchors": ["test/RadioStateIntegrationTest.cpp: relectsMasterIfMasterDisappears, stableWhenNodesDropOut", "test/FakeNetwork.cpp: Tick, reinitNode", "src/generic/RadioStateMachine.cpp: Tick", "src/generic/NetworkManager.cpp: receive, send"]}
{"id": "C121", "title": "Everybody shows the effect of the master", "statement": "In the simulated network of the integration tests without packet loss, with one node whose first wait ends first and whose packet ids differ (C118): whenever more than 3N + 2003 ms have passed since the take-over and since the master last chose an effect, all N nodes show the effect, hold time and palette the master shows. Once the master has chosen an effect they also all report the same effect number. Before that, in the first minute, everybody shows effect 1 and the others report 1 but the master itself reports 0. The same holds after every later silence that ends with a new master (C120).", "quantifier": "every random source with the two conditions, number of nodes up to 499, moment, and number of rounds up to the wrap of the clock", "why_tests_cant": "The integration tests compare effect numbers at a few moments of one run with one seed; packets overtake and overwrite each other in the radios' single slots.", "anchors": ["test/RadioStateIntegrationTest.cpp: setEffectIndex", "test/FakeNetwork.cpp: Tick", "src/generic/RadioStateMachine.cpp: RadioTick, handleMasterEvent, handleSlaveEvent, GetSetEffect, GetEffectIndex", "src/generic/NetworkManager.cpp: receive, send", "lib/led_manager/LedManager.cpp: GetCurrentEffect"]}
{"id": "C122", "title": "When the simulated master chooses effects", "statement": "In the setting of C118 the master chooses a new effect exactly at the times 60001 ms, 120002 ms, 180003 ms and so on, once each, and at no other time. So when the random numbers of the first node do not repeat (modulo 65535) within 76 successive ones, all nodes show the same effect at every moment except in the first 3N + 2003 ms after the take-over and after every multiple of 60001 ms, and report the same number from the first minute on.", "quantifier": "every random source, number of nodes up to 900 (499 for the agreement), and number of rounds up to the wrap of the clock", "why_tests_cant": "Unbounded runs; a test sees the changes of one run.", "anchors": ["test/RadioStateIntegrationTest.cpp: setEffectIndex", "test/FakeNetwork.cpp: Tick", "src/generic/RadioStateMachine.cpp: RadioTick, beginMaster, handleMasterEvent"]}
{"id": "C123", "title": "What the test of an unstable master tests", "statement": "The helper resetMaster of the integration tests replaces node 0 when node 0 is master and otherwise replaces nobody, whoever is master. So in the setting of C118 with another node leading it changes nothing. When node 0 leads, in the first minute and at a moment at which nothing is on the air or waiting, node 0 reports effect number 0 before the replacement and still reports 0 up to 997 rounds after it. In particular the test changesEffectWhenMasterNotStable, which wants two different numbers 100 rounds apart, finds the same number twice for every random source in which node 0 waits shortest and does not repeat its numbers, except for 39 of the 2000 possible waits.", "quantifier": "every random source with the conditions, number of nodes (499), length of the run in the first minute, and number of rounds up to 997", "why_tests_cant": "It is about what a test of the project shows for all seeds; the test itself runs one.", "anchors": ["test/RadioIntegrationTest.hpp: resetMaster", "test/RadioStateIntegrationTest.cpp: changesEffectWhenMasterNotStable", "test/FakeNetwork.cpp: Tick, reinitNode", "src/generic/RadioStateMachine.cpp: RadioTick, GetEffectIndex"]}
{"id": "C124", "title": "The timetable of the simulated master", "statement": "In the setting of C118 the master, which takes over at time t0, transmits heartbeats exactly at t0, t0 + 1001, t0 + 2002 and so on. It repeats its effect after 2001 ms each time, or after 2002 ms when a heartbeat and a new effect both fall on the millisecond before. When it has transmitted nothing for 2N + 2 ms, nothing is on the air and no radio has anything to send; in the first minute that is the case whenever the time since t0 is more than 2N + 2 modulo 1001 and modulo 2001.", "quantifier": "every random source with the conditions of C118, number of nodes up to 900, and number of rounds up to the wrap of the clock", "why_tests_cant": "Unbounded runs and any number of nodes; packets wait for each other in the single slots of the radios.", "anchors": ["test/FakeNetwork.cpp: Tick", "lib/fake-radio/FakeRadio.cpp: sendPacket, getSentPacket", "src/generic/RadioStateMachine.cpp: RadioTick, beginMaster, handleMasterEvent"]}
{"id": "C125", "title": "Two presses of the reset button start the controller's boot loader", "statement": "The controller, switched on, runs its application. From then on the boot loader runs exactly after those presses of the reset button that come more than 100 ms and less than a second after the last start, be it of the application or of the boot loader; after every other press, also one within 100 ms of being switched on, the application runs. Finding: this rests on the clock library beginning a new second when the time is set, which the code does not ask for at the place where it matters; if the running second goes on, a second press is lost when the restart lasts into the next second, and after the boot loader the time for the next press is shorter; for presses without number it is stated which of them start the boot loader.", "quantifier": "every sequence of presses at any times up to 84 years apart", "why_tests_cant": "Unbounded sequences of resets at arbitrary times; the state survives in a clock that keeps running, and no test can press the button.", "anchors": ["src/devices/controller/controller.cpp: setup, JumpToBootloader, kEpochTimer, kEpochReset"]}
{"id": "C126", "title": "The controller's program as a whole", "statement": "From power-on the controller's program never stops, whatever is pressed, whatever the battery does and whatever well-formed packets arrive. Before the first pass it shows darkness; if the first left button is held, then the left status light alone, grey while the battery is measured and afterwards in the colour of the charge (C81). That colour does not linger: the first pass replaces it by the role light in effect mode, by darkness in a direct mode, and by the dim red of the warning if the battery is already exhausted.", "quantifier": "every controller, battery reading at start-up, and sequence of passes", "why_tests_cant": "Unbounded runs with arbitrary inputs.", "anchors": ["src/devices/controller/controller.cpp: setup, loop, LowBatteryMode"]}
{"id": "C127", "title": "Nodes of the simulated network come and go", "statement": "Nodes of the simulated network are replaced by new ones while it runs, any number of times, several at once, the master among them or not, each time when nothing is on the air or waiting to be sent. As long as the master is not replaced, it stays the only master. When it is replaced nobody is master, every node waits on, between 996 and 6999 ms from then; until the first of them stops waiting nobody is master, and from the next round on that node is the only master. For slaves that come and go it is enough that the random numbers of the master are varied: of 136 successive ones no two give the same id.", "quantifier": "every network of at most 900 nodes, every course of replacements with any times between them (until 90 s before the clock wraps), every source of random numbers with a first node to stop waiting and distinct ids", "why_tests_cant": "Unbounded sequences of replacements; the existing test tries ten pairs of replacements with one source of random numbers and does not control when they happen.", "anchors": ["test/FakeNetwork.cpp: reinitNode, Tick", "test/RadioStateIntegrationTest.cpp: stableWhenNodesDropOut", "src/generic/RadioStateMachine.cpp: Tick, handleSlaveEvent, handleMasterEvent"]}
{"id": "C128", "title": "What the project's own unit tests show", "statement": "Of the seventeen unit tests of the node's state machine thirteen pass whatever the random number generator returns and whatever the memory of a declared packet holds. The other four pass or fail as single calls of rand() decide: the two election tests fail for one value in 65535, the test of the master's own effect changes when either of two draws is a multiple of 255, the test of the hold time when one draw is. Of the five tests of the network manager four always pass (the rebroadcast test for any number of rounds up to 6788, not only nine) and one fails for one value in 65535. No test reaches undefined behaviour or an abort. The last line of the two SetEffect tests is meant to say that the node returns to the effect it had before; the node never does so, the comparison holds because it compares a packet with itself.", "quantifier": "every sequence of random numbers, every content of uninitialised packets, every number of rebroadcast rounds up to 6788", "why_tests_cant": "A test suite does not test itself: that it passes for every seed, and that its lines compare what they are meant to compare, takes a proof over all random numbers and memory contents.", "anchors": ["test/RadioStateMachineTest.cpp: all tests", "test/NetworkManagerTest.cpp: all tests", "test/FakeRadio.cpp: FakeRadio", "src/generic/RadioStateMachine.cpp: RadioStateMachine", "src/generic/NetworkManager.cpp: NetworkManager"]}
{"id": "C129", "title": "The simulated network when packets get lost", "statement": "In the network that the integration tests simulate each node throws a die for each round, and with packet loss n it hears nothing in that round if the number is a multiple of n. However the loss is set and whatever the dice show: if one node waits less than the others at first, and afterwards every other node hears a heartbeat at least every five seconds, that node becomes the master when its wait ends and stays the only one, whatever ids the packets carry. Without losses everybody does hear one that often. If no die hits, the calls of all nodes are those of the run without packet loss. If all dice hit, every node is a master as soon as its own first wait has ended; so no loss rate, 1% included, is harmless for all random numbers, and the test with mild loss can fail in every round it looks at.", "quantifier": "up to 333 nodes (900 without losses), any packet loss changed in any round, any random numbers and dice, any number of rounds up to 49 days", "why_tests_cant": "Whether a packet is lost is random; a test sees one course of the dice. The claim ranges over all of them, and its failure case has a probability no test run would meet.", "anchors": ["src/devices/fancy-node/fancy-node.cc: FakeNetwork::Tick, FakeNetwork::setPacketLoss", "test/RadioStateIntegrationTest.cpp: stableWithMildPacketLoss", "src/generic/RadioStateMachine.cpp: RadioStateMachine::Tick"]}
{"id": "C130", "title": "What the tests of the effects and of the LED manager show", "statement": "The five tests of the effects never fail and never touch memory outside the LEDs, whatever the random numbers, the clock and uninitialised memory. But they draw only the eleven effects that the network chooses by itself, once each, and all with palette 0: no test draws any of the numbers 27 to 34 that only a person can choose, and none draws any other palette, although one test is named for the palettes. The three tests of the LED manager pass too, the one comparing colours provided the colour conversion of the graphics library never gives a fire the colour of a blink or full red.", "quantifier": "every behaviour of the graphics library within its contract, every random number, every content of uninitialised memory, every clock value", "why_tests_cant": "A test cannot say what it does not draw; and it runs with one sequence of random numbers. What the tests cover has to be derived from their text.", "anchors": ["test/EffectsTest.cpp: runEffectsTest, allLedValues, allColorPalettes, multipleStrips", "test/LedManagerTest.cpp: hasNonRandomEffects, callStripInReverse", "lib/led_manager/LedManager.cpp: LedManager::RunEffect, LedManager::GetCurrentEffect", "lib/fake-led-manager/FakeLedManager.cpp: FakeLedManager"]}
{"id": "C131", "title": "What the small unit tests show", "statement": "The tests of the palettes pass for every graphics library that keeps its contract: their numbers are the only ones possible. Those of circles, mirroring, strips and packets pass whatever memory holds. Of the five tests of the noise one passes for all random numbers, the one that looks at the wrap-around of the coordinates; the other four ask for steps of at most 8 and fail for some random numbers, with steps of 12 and 16. The test with invalid packets ends well for all its 1600 combinations, but no node ever sees one of the packets: they are given to a second network that is never run. A node that did hear one of them could stop with a failed assertion.", "quantifier": "every graphics library within the contract, every sequence of random numbers, every content of uninitialised memory, every parameter of the test with invalid packets", "why_tests_cant": "The tests of the noise draw 255 random points and pass nearly always; that a test never delivers its packets shows in none of its results.", "anchors": ["test/ColorPaletteTest.cpp", "test/MathTest.cpp", "test/StripDescriptionTest.cpp", "test/RadioPacketTest.cpp", "test/PerlinTest.cpp: shouldWrapAround, shouldWrapAroundPolar", "test/InvalidPacketTest.cpp: InvalidPacketTest", "lib/math/Perlin.hpp: perlinNoise, perlinNoisePolar", "lib/color/ColorPalette.cpp: ColorPalette::GetGradient"]}
{"id": "C132", "title": "What a node promises although its clock moves while a call runs", "statement": "A call of the public interface reads the clock up to eleven times, and the readings may differ. Whatever they are, as long as the clock does not go backwards: on the device no call fails; a slave takes over only in a call that begins more than 5 s after the start of every call that brought a sign of life, and does take over in a packet-free tick that begins more than 6.999 s after the end of the last one; own heartbeats begin more than 1 s apart, a due one is sent, and each carries the network time of a moment within its call; the network time after a heartbeat is exact up to the duration of the call that accepted it; hold times and the minute between own changes hold up to the duration of a call. With a clock that stands still during each call all of it is the behaviour of the simpler model. Only the cadence across a change of master does not survive in general: if a certain reading of the call falls exactly a minute after the last change, the new master never changes the effect by itself.", "quantifier": "every sequence of calls, every sequence of readings within every call that does not go backwards, every random sequence", "why_tests_cant": "The fake clock of the tests stands still during a call, so no test can see two different readings in one call.", "anchors": ["src/generic/RadioStateMachine.cpp: RadioStateMachine::Tick, RadioStateMachine::RadioTick, RadioStateMachine::handleSlaveEvent, RadioStateMachine::handleMasterEvent, RadioStateMachine::beginSlave, RadioStateMachine::beginMaster, RadioStateMachine::SetTimer, RadioStateMachine::TimerExpired"]}
{"id": "C133", "title": "What a node does with packets does not depend on how its clock moves", "statement": "Whatever the clock shows at its readings within a call, as long as it does not go backwards: a node accepts a packet exactly when its id is not among the last five it transmitted; an election is decided by the id of the heartbeat and the number drawn; roles change for the known reasons only; packets of unknown types change nothing but the memory of ids; a slave sends nothing of its own except the heartbeat of a take-over and what SetEffect is asked to send; effects and control packets are adopted, and nothing else changes the effect; own changes stay in the configured range; a re-broadcast is the current packet, comes when due, and two of them are 2 s apart up to the duration of a call.", "quantifier": "every sequence of calls, every sequence of readings within every call that does not go backwards, every random sequence", "why_tests_cant": "The fake clock of the tests stands still during a call, so no test can see two different readings in one call.", "anchors": ["src/generic/RadioStateMachine.cpp: RadioStateMachine::RadioTick, RadioStateMachine::handleSlaveEvent, RadioStateMachine::handleMasterEvent, RadioStateMachine::PerformMasterElection, RadioStateMachine::SetEffect, RadioStateMachine::TimerExpired", "src/generic/NetworkManager.cpp: NetworkManager::receive, NetworkManager::send"]}
{"id": "C134", "title": "What the integration test of a disappearing master shows", "statement": "If a node other than node 0 is elected, relectsMasterIfMasterDisappears passes although no master disappears: resetMaster does nothing and the same node leads throughout. If node 0 is elected and nothing is in the air, which holds for 1975 of its 2000 possible waits, it is replaced, there is no master in the next round, every node then waits for less than seven seconds, and the test passes if the node that waits shortest draws ids the others have not just seen.", "quantifier": "every random sequence up to repeated ids, every order of the waits without a tie, every one of the five nodes as first master", "why_tests_cant": "The test runs with one seed; whether it exercises the re-election at all depends on which node that seed elects.", "anchors": ["test/RadioStateIntegrationTest.cpp: relectsMasterIfMasterDisappears", "test/RadioIntegrationTest.hpp: resetMaster, getNumMasters, runTicks", "test/FakeNetwork.cpp: reinitNode, Tick"]}
{"id": "C135", "title": "A new effect of the master is everywhere after two rounds", "statement": "When nothing is in the air at the moment the master chooses a new effect, every node of the simulated network shows it after that round and one more and keeps it until the next choice. For more than half an hour after power-up, nothing is in the air whenever the last heartbeat, rebroadcast and choice are more than 2N+2 ms ago. Every effect chosen is a drawn number modulo 27 and every palette the next one modulo 22, whatever a test does to the network. So setEffectIndex passes exactly if the third choice is not effect 1: it can fail for correct nodes, and it can pass with everybody showing the default effect.", "quantifier": "up to 900 nodes, every random sequence up to repeated ids, every order of the waits without a tie, every sequence of actions of a test for the origin of the choices", "why_tests_cant": "The test uses one seed and looks once, after 180001 rounds; its outcome is decided by one random number.", "anchors": ["test/RadioStateIntegrationTest.cpp: setEffectIndex", "test/FakeNetwork.cpp: Tick", "src/generic/RadioStateMachine.cpp: handleMasterEvent, handleSlaveEvent, GetEffectIndex", "src/generic/NetworkManager.cpp: receive, send"]}
{"id": "C136", "title": "What the integration test of nodes that drop out shows", "statement": "However many pairs of nodes are replaced, stableWhenNodesDropOut passes if each pair is replaced when nothing is in the air, the waits of the nodes do not tie and the master's ids are distinct. When a replaced node was the master, no round of the first 997 after the replacement has a master, and none of these rounds is counted. total_bad_ticks is the number of rounds without exactly one master; max_bad_ticks is the number of such rounds directly after another, over all runs together, never more than total_bad_ticks, and not the longest run; n such rounds in a row make it at least n - 1.", "quantifier": "every random sequence up to repeated ids, every order of the waits without a tie, every list of pairs of the five nodes, every length of the parts of the test, every sequence of master counts", "why_tests_cant": "The test runs with one seed and ten pairs drawn from it; it cannot show what it does not count.", "anchors": ["test/RadioStateIntegrationTest.cpp: stableWhenNodesDropOut", "test/RadioIntegrationTest.hpp: getNumMasters, runTicks", "test/FakeNetwork.cpp: reinitNode, Tick"]}
{"id": "C137", "title": "What the integration tests with packet loss show", "statement": "stableWithMildPacketLoss passes exactly if fewer than 100 of its last 50000 rounds have not exactly one master and fewer than 50 of these follow another directly. It passes if the other nodes hear the master at least every five seconds, and in particular if none of its dice hits. If all dice hit every node is a master in every round that is counted and both tests with packet loss fail, so for the same nodes and the same waits the dice alone decide. If no die hits, a test in which nodes drop out has the result of the same test without packet loss. No test of this form reaches undefined behaviour or an abort, whatever nodes it replaces.", "quantifier": "every random sequence, every course of the dice, every list of pairs of the five nodes, every length of the parts of the test", "why_tests_cant": "The tests see one course of the dice of one seed.", "anchors": ["test/RadioStateIntegrationTest.cpp: stableWithMildPacketLoss, stableWithMildPacketLossAndNodesDropping", "test/RadioIntegrationTest.hpp: getNumMasters, runTicks", "test/FakeNetwork.cpp: reinitNode, setPacketLoss, Tick"]}
{"id": "C138", "title": "A tie in the simulated network", "statement": "In the simulated network of the integration tests without packet loss, when the waits of several nodes end at the same time, all of them become master in that round, and nobody else does. The first of them by index, a, is heard first. Each other one draws a number against the id of the heartbeat of a; who draws more claims to be the master, and the claim of the lowest index is heard first. So exactly one node prevails: a if nobody draws more, else the first that does. It is a master from the start, and at most two rounds plus its index later it is the only one and stays it, however long the test runs. The nodes that waited longer never become master. Hence electsOneMaster and stableOverTime also pass when waits tie. Needed: the ids of these first packets differ. Finding: if the heartbeats have the same id, all of them stay masters.", "quantifier": "every random sequence up to repeated ids, every number of nodes up to 900, every tie between any of them, every number of rounds up to the wrap of the clock", "why_tests_cant": "Tests run one seed; whether waits tie and what the tied nodes draw depends on the seed.", "anchors": ["test/RadioStateIntegrationTest.cpp: electsOneMaster, stableOverTime", "test/FakeNetwork.cpp: Tick", "src/generic/RadioStateMachine.cpp: PerformMasterElection, beginMaster, beginSlave, handleMasterEvent, handleSlaveEvent"]}
{"id": "C139", "title": "A tie after the master has disappeared", "statement": "In the simulated network of the integration tests, from any moment on at which nobody is master and nothing is on the air, without packet loss: when the waits of several nodes end at the same time, all of them become master in that round and nobody else does. The first of them by index, a, is heard first; each other one draws a number against the id of the heartbeat of a, and the lowest index that draws more takes its place. Exactly one node succeeds in this sense, whatever is drawn. It is a master from the start, and at most two rounds plus its index later it is the only one and stays it, however long the test runs. Hence a network whose master is replaced has nobody as master while the others wait and exactly one master soon after, whether or not the waits end at the same time. Needed: no change of the effect is due in the second after the waits end, and the ids of the packets concerned are not ones the nodes have just transmitted.", "quantifier": "every silence reached by any test, every random sequence up to repeated ids, every number of nodes up to 900, every tie between any of them, every number of rounds up to the wrap of the clock", "why_tests_cant": "Tests run one seed; whether waits tie after a fail-over, and what the tied nodes draw, depends on the seed.", "anchors": ["test/RadioStateIntegrationTest.cpp: relectsMasterIfMasterDisappears", "test/FakeNetwork.cpp: Tick, reinitNode", "src/generic/RadioStateMachine.cpp: PerformMasterElection, beginMaster, beginSlave, handleMasterEvent, handleSlaveEvent"]}
{"id": "C140", "title": "Clocks that run at different speeds", "statement": "The clocks of the nodes need not run at the same speed. Say that in A ms every clock counts more than 1000, and in B ms at most 5000. If a node sends a heartbeat while the others are slaves, gets a free tick every P ms, its packets reach everybody within D ms, and A + P + D <= B + 1, it stays the only master. However long the network runs, the network time of every node differs from the master's by no more than D + 2 E one way and 2 E the other, where E is how wrong a clock can be after A + P + 2 D ms: differences do not add up. Once the master has shown one effect for 2 A + 2 P + 2 D ms everybody shows it, and draws the picture the master draws at a network time at most that much earlier. For clocks wrong by at most 100 parts per million: P + D may be 3997 ms, and the network times differ by at most 2 ms beyond the time packets travel.", "quantifier": "every number of nodes, every behaviour of every clock within the bounds, every interleaving, every random source; until a clock wraps", "why_tests_cant": "Tests run all nodes on one clock; two real clocks never agree, and their difference grows for weeks.", "anchors": ["src/generic/RadioStateMachine.cpp: handleSlaveEvent, handleMasterEvent, GetNetworkMillis", "lib/types/Types.cpp: millis"]}
{"id": "C141", "title": "A network that loses packets", "statement": "Packets get lost, clocks run at different speeds, and nothing is known about how often the master is called. If a node sends a heartbeat while the others are slaves, nobody takes over at once, and from then on no other node goes without hearing some heartbeat for longer than Gap ms, in which no clock counts more than 5000, then that node stays the only master, however many packets are lost. Every node's network time differs from the master's by no more than D + 2 E one way and 2 E the other, where D is how old a packet can be when it is accepted and E how wrong a clock can be after Gap + D ms. Once the master shows one effect and nobody orders another, each node shows it for good from the first announcement it happens to hear more than D ms later, and draws the picture the master draws at most that much earlier. Five seconds are the limit but for the two that are drawn: a slave that hears no life sign while its clock counts 7000 ms becomes a second master at its next free tick. The networks of C140 are a special case with Gap = A + P + D - 1.", "quantifier": "every number of nodes, every pattern of losses within the bound, every behaviour of every clock within the bounds, every interleaving, every random source; until a clock wraps", "why_tests_cant": "Which packets are lost is up to the air; tests try a few loss rates with one sequence of dice and one clock.", "anchors": ["src/generic/RadioStateMachine.cpp: handleSlaveEvent, handleMasterEvent, GetNetworkMillis, GetSetEffect", "src/generic/NetworkManager.cpp: receive"]}
{"id": "C142", "title": "An order in a network that loses packets", "statement": "In a network that loses packets and whose clocks run at different speeds, as in C141, the master learns of an order: it accepts a packet that carries it, or its own user gives it. If nobody orders anything else, then until the hold time is over by the master's clock the master shows what was ordered, and so does every other node from the first announcement on that it hears more than D ms later, although it missed the order itself and any number of announcements. With hold time zero that lasts for ever, unless the order is given at the master itself.", "quantifier": "every number of nodes, every pattern of losses within the bound of C141, every behaviour of every clock within the bounds, every interleaving, every random source; until 255 s before a clock wraps", "why_tests_cant": "Which of the packets that carry an order are lost is up to the air; no list of cases covers all patterns.", "anchors": ["src/generic/RadioStateMachine.cpp: SetEffect, handleSlaveEvent, handleMasterEvent, GetSetEffect"]}
{"id": "C143", "title": "Starting up in a network that loses packets", "statement": "Nodes with clocks that run at different speeds are switched on at any times, or their master has left, and packets get lost. Suppose the wait of node m ends first, by time T, and the waits of the others end no earlier than T + Gap by their own clocks, and each node hears some heartbeat every Gap ms once m has taken over. Then m takes over by time T, nobody else ever does although m's first heartbeats may be lost, and everybody follows it as in C141. If m then shows K and nobody orders anything else, every node that has heard one announcement draws, on any strip, the picture the master draws between -2E and D + 2E ms earlier.", "quantifier": "every number of nodes, every pattern of losses within the bound, every behaviour of every clock within the bounds, all times of power-up, every interleaving, every random source", "why_tests_cant": "Start-up depends on random waits, drifting clocks and on which packets are lost; tests run a few nodes with one shared clock and a perfect air.", "anchors": ["src/generic/RadioStateMachine.cpp: RadioStateMachine, beginSlave, handleSlaveEvent, beginMaster, handleMasterEvent, GetNetworkMillis"]}
{"id": "C144", "title": "Nodes that come and go", "statement": "In a network that loses packets and whose clocks run at different speeds, as in C141, nodes other than the master are switched on and off at any times. As long as each of them, while it is on, does not go without a heartbeat for more than Gap ms, the master stays the only master: no newcomer takes over. A newcomer shows the master's time as soon as it has been on for Gap ms, up to 2E ms one way and D + 2E ms the other. Once it has heard one announcement it draws, on any strip, the picture the master draws, also when the order was given before it was switched on.", "quantifier": "every number of nodes, all times of switching on and off, every pattern of losses within the bound, every behaviour of every clock within the bounds, every interleaving, every random source", "why_tests_cant": "When nodes are switched on and off, and which packets they miss, is up to their wearers; tests replace a few nodes between rounds of one shared clock.", "anchors": ["src/generic/RadioStateMachine.cpp: RadioStateMachine, beginSlave, handleSlaveEvent, handleMasterEvent, GetNetworkMillis, GetSetEffect"]}
{"id": "C145", "title": "A device whose radio does not start", "statement": "A device whose radio does not start says so for ever. A node or fancy node shows the same on all its LEDs and on the board's own: dark red for a tenth of a second, dark for a tenth of a second. The controller lights its first LED red in every other fifth of a second and keeps the others dark. The DMX converter's lamp is off and on for a tenth of a second each.", "quantifier": "all times, every number of LEDs", "why_tests_cant": "The programs never return from these loops, and the loops need hardware that fails.", "anchors": ["src/arduino/FastLedManager.cpp: FatalErrorAnimation", "src/devices/node/node.cpp: setup", "src/devices/fancy-node/fancy-node.cc: setup", "src/devices/controller/controller.cpp: setup", "src/devices/dmx/dmx.cpp: setup"]}
{"id": "C146", "title": "Networks that meet although packets get lost", "statement": "Networks with any number of masters come into each other's range, packets get lost, and clocks run at different speeds. If no node but m goes without a heartbeat, from whomever, for more than Gap ms, then after Gap ms nobody but m becomes master any more. A node that stays master beside m has to win an election, with a number above the id of a heartbeat, in every interval of Gap ms. Once the others have lost and m sends a heartbeat more than 2D ms later, m is the only master from then on; all show its time up to 2E ms one way and D + 2E ms the other, and once a node has heard one announcement it draws, on any strip, what m draws, whichever master it followed before.", "quantifier": "every number of nodes and of masters, every past, every pattern of losses within the bound, every behaviour of every clock within the bounds, every interleaving, every random source", "why_tests_cant": "Which packets get lost and how the clocks drift is up to the surroundings; tests use one clock and two or three nodes.", "anchors": ["src/generic/RadioStateMachine.cpp: PerformMasterElection, handleMasterEvent, handleSlaveEvent, SendHeartbeat, GetNetworkMillis, GetSetEffect"]}
{"id": "C147", "title": "How much a node transmits", "statement": "In any T ms a node hands the radio at most T/1001 + T/2001 + T/60001 + 4 packets (heartbeats, repetitions of its effect, own changes of effect), and two more for every packet it accepts or effect its program sets, relayed packets and elections included. A master with a call without packet in every P ms sends at least T/(1000 + P) heartbeats, and no node sends more than T/1001 + 1. A node that hears nothing and is told nothing transmits less than 1.52 packets a second on average and at most 92 in a minute. Without the relayed packets it is one more for every packet accepted and two for every effect set. In a settled network in which nobody sets an effect all nodes together send no more packets of their own than a single node that hears nothing. The two are needed: a master that hears five rivals within a millisecond can transmit ten packets.", "quantifier": "every history, every window in it, every sequence of packets and calls at any times, every random source (clock not wrapped)", "why_tests_cant": "It is a bound over all sequences of packets and all timings of the loop; tests look at single packets.", "anchors": ["src/generic/RadioStateMachine.cpp: RadioTick, handleMasterEvent, handleSlaveEvent, PerformMasterElection, beginMaster, SetEffect, SetTimer", "src/generic/NetworkManager.cpp: send, receive"]}
