# Formal model of firefly2: design

The code in `/repo` (candykingdom/firefly2) drives LED nodes that share a radio
network.  This directory holds a Rocq (Coq 8.16.1) model of that code, small
separate specifications, and proofs of the properties in `properties.jsonl`.

Contents: 1 how the code is read, 2 files, 3 properties and how each is proved,
4 what is modelled and what is not, 5 trusted base, 6 findings, 7 testing the
theorems against wrong programs, 8 `Print Assumptions` per theorem.

## 1. How the code is modelled

* Values of fixed-width integer types are integers `Z`; every conversion to a
  fixed-width type is an explicit `u8/u16/u32/i8/i16/i32` (reduction modulo
  2^k, two's complement for the signed ones, as gcc/clang define the
  conversion).  C `/` and `%` on signed operands are `Z.quot`/`Z.rem`.
* A call has an outcome: `Ok v`, `Undef` (undefined behaviour: out-of-range
  access, division by zero, oversized shift) or `Abort` (a failed `assert`).
  Nothing is assumed away: theorems say when the outcome is `Ok`.
* The build is a parameter `plat`: `Host` (asserts on, `random(min,max)` of
  `lib/types/Types.cpp`) or `Arduino` (no asserts, Arduino's `random`).
* External things are parameters that theorems quantify over: random draws (an
  arbitrary stream), the millisecond clock, incoming packets (arbitrary),
  buttons, battery readings, console values, and the FastLED functions (a record
  of functions with a stated contract, see section 4).
* The radio state machine is a function on a record with one field per C++
  member; a *history* (`hist`) is the construction of a node followed by any
  list of timed calls: radio ticks with whatever the radio delivers, SetEffect,
  SetNumEffects, SetNumPalettes.  Time in histories is real time, an unbounded
  integer; `millis()` is its value modulo 2^32.  Theorems that hold only until
  the first wrap of the clock say so; what happens at the wrap is C35 and C84.
* Everything transmitted is recorded, tagged with where it came from (relay of
  a received packet, or own packet: heartbeat, election, effect change,
  re-broadcast, API call).
* The hand-held controller, the battery supervision, the stored device
  description, the DMX gateway, the start-up animation and the watchdog are
  further state machines, each with its own histories.
* Specifications (`Spec*.v`) use data types of the model (packets, colours,
  calls, transmissions) and public getters, not its functions.

## 2. Files (rocq/theories)

In build order.  `Spec*` hold specifications, `*Facts`, `*Step`, `*Eval`, `*Time` proof
support, `Prop*` the theorems with examples; the others model code.

| file | content |
|---|---|
| `CInt.v` | Fixed-width integers and outcomes. |
| `CIntFacts.v` | Lemmas on fixed-width integers, arrays and outcomes. |
| `Packet.v` | Model of RadioPacket: lib/radio/Radio.hpp lines 7-83 (the header part of that file) and lib/radio/Radio.cpp. |
| `SpecPacket.v` | Specification vocabulary for packets. |
| `PacketFacts.v` | Proofs about RadioPacket. |
| `PropPacket.v` | C01-C05: packets. |
| `HwRadio.v` | Model of the device radio driver: src/arduino/RadioHeadRadio.cpp and .hpp. |
| `HwFacts.v` | Proofs about the device radio driver. |
| `PropHw.v` | C06-C09: the device radio driver. (C08's second half, about a master's effect broadcast, is in PropRsmHw.v.) |
| `NetMgr.v` | Model of NetworkManager: src/generic/NetworkManager.cpp and .hpp, and of the two-argument random: lib/types/Types.cpp. |
| `NetHist.v` | Histories of one NetworkManager: any sequence of calls of its two public functions, src/generic/NetworkManager.cpp lines 10-34. |
| `SpecNet.v` | Specification vocabulary for the network layer. |
| `NetFacts.v` | Proofs about NetworkManager. |
| `PropNet.v` | C10-C14: one NetworkManager. |
| `Flood.v` | A network of NetworkManagers (src/generic/NetworkManager.cpp) joined by an arbitrary medium. |
| `SpecFlood.v` | Specification vocabulary for flooding: reads only the log of transmissions. |
| `FloodFacts.v` | Proofs about flooding. |
| `StormFacts.v` | Proof that six ids can circulate for ever between two nodes. |
| `PropFlood.v` | C15-C16: flooding. |
| `Rsm.v` | Model of RadioStateMachine: src/generic/RadioStateMachine.cpp and .hpp (all functions). |
| `RsmStep.v` | Proof support: every successful radio tick is one of fifteen cases. |
| `RsmEval.v` | Proof support: evaluation of one radio tick. |
| `RsmHist.v` | Histories of one node: construction followed by timed calls of the public interface. `at_` is real time in milliseconds since power-up and unbounded; the C++ function millis() is its low 32 bits. |
| `SpecRsm.v` | Specification vocabulary for one node's radio state machine. |
| `RsmFacts.v` | Proof support: steps, the data invariant, and invariants over histories. |
| `RsmTime.v` | Proof support: timers against the history. |
| `RsmRun.v` | Executable histories, used for the examples and the refutations. |
| `RoleFacts.v` | Proof support for the role properties. |
| `PropRole.v` | Roles and heartbeats: C17-C25, C39. |
| `PropHeartbeat.v` | Heartbeats and network time: C20, C21, C22, C23, C24, C25, C39. |
| `EffectFacts.v` | Proof support for the effect properties. |
| `PropEffect.v` | Which effect a node shows: C27, C28, C29. |
| `PropHold.v` | When a node changes or repeats its effect: C30-C36. |
| `PropApi.v` | SetEffect and crash freedom: C36, C37, C38. |
| `PropWrap.v` | The 49-day clock wrap: C35. |
| `PropTick.v` | Tick, the function the main loop calls: C42. |
| `PropNetTime.v` | Network time in a network of any number of nodes: C26. |
| `PropPair.v` | Two nodes: C40 and C41. |
| `Fastled.v` | The part of the FastLED library that /repo calls. |
| `Maths.v` | Model of lib/math/Math.cpp and of Effect::GetThresholdSin (lib/effect/Effect.cpp lines 5-13). |
| `Palette.v` | Model of lib/color/ColorPalette.{hpp,cpp} and of the palette list in lib/effect/Effect.cpp lines 18-67. |
| `SpecColor.v` | Specification vocabulary for palettes: no function of the model is used. |
| `PaletteFacts.v` | Facts about palettes. |
| `PropMath.v` | C43-C45: mirroring, position on a circle, threshold sine. |
| `PropColor.v` | C46-C50: palettes and gradients. |
| `Device.v` | Model of lib/device: StripDescription and DeviceDescription. |
| `LedMgr.v` | Model of the effect table and of rendering: lib/led_manager/LedManager.cpp, src/arduino/FastLedManager.cpp, lib/fake-led-manager/FakeLedManager.cpp. |
| `SpecLed.v` | Specification vocabulary for the effect table and for rendering. |
| `LedFacts.v` | Facts about the effect table. |
| `PropTable.v` | C51-C54: effect table, unique numbering, destruction, strip flags. |
| `RenderFacts.v` | Facts about rendering. |
| `PropRender.v` | C55, C56: rendering a device. |
| `Effects.v` | Model of the effects in lib/effect and of the noise functions in lib/math/Perlin.hpp. |
| `SpecEffect.v` | Specification vocabulary for the effects. |
| `RgbFacts.v` | Facts about the effects: no trap on valid input. |
| `Show.v` | Model of the built-in effect table and of how an LED manager picks the current effect: lib/led_manager/LedManager.cpp lines 7-39 and 51-59. |
| `ShowFacts.v` | Facts about the built-in table and the current effect. |
| `PropShow.v` | C57-C60, C64: what the built-in effects show. |
| `PropAnim.v` | C61-C63 and C69-C74: how the animations move. |
| `Controller.v` | Model of the hand-held controller: src/devices/controller/controller.cpp, leds.cc, leds.h, buttons.cc and buttons.h. |
| `SpecController.v` | Specification vocabulary for the hand-held controller. |
| `ControllerFacts.v` | Facts about the controller. |
| `PropController.v` | C65, C66 and C75-C80: the hand-held controller. |
| `Battery.v` | Model of the battery supervision shared by the fancy node and the controller: lib/battery/Battery.hpp, src/devices/fancy-node/fancy-node.cc and the top of `loop` in src/devices/controller/controller.cpp. |
| `SpecBattery.v` | Specification vocabulary for the battery supervision. |
| `PropBattery.v` | C67, C81, C82: the battery. |
| `Flash.v` | Model of the stored device description: src/devices/node/node.cpp lines 28-70 and 76-90 and, with the emulated EEPROM, src/devices/fancy-node/fancy-node.cc lines 61-102 and 153-167. |
| `SpecFlash.v` | Specification vocabulary for the stored device description. |
| `PropFlash.v` | C68: the stored device description. |
| `TakeFacts.v` | Calls that accept an effect or control packet. |
| `Dmx.v` | Model of the DMX gateway: src/devices/dmx/dmx.cpp. |
| `SpecDmx.v` | Specification vocabulary for the DMX gateway: what was on the air, and when, for a sequence of passes given by real time and console colour. |
| `PropDmx.v` | The DMX gateway: C83-C86. |
| `BeginMasterRace.v` | The one place where two readings of the clock in one call can disagree: src/generic/RadioStateMachine.cpp lines 228-240, beginMaster, here with every call of millis() written out. `c i` is the (i+1)-th reading. |
| `PropRace.v` | C33 when the clock moves while a node becomes master. |
| `PropRsmHw.v` | C08 for whole nodes: what of a node's traffic gets through the device radio. |
| `Boot.v` | Start-up of a node and its watchdog: src/arduino/FastLedManager.cpp lines 8-53 (buffer and start-up animation) and src/devices/node/node.cpp lines 142-162 (main loop). |
| `PropBoot.v` | Start-up animation and watchdog: C87, C88. |
| `Node.v` | The program of a plain node: the devices of lib/device/Devices.hpp and src/devices/node/node.cpp (set-up with the device taken from the header, and the main loop). |
| `PropNode.v` | C89: the program of a plain node. |
| `PropNetwork.v` | Where the effects shown in a network come from: C90, C91. |
| `PropNetSafe.v` | A network left to itself never breaks its pictures: C91. |
| `PropOneMaster.v` | A network of any number of nodes keeps its master for ever: C92. |
| `PropCatchUp.v` | A node that joins a network catches up: C93. |
| `PropNoise.v` | The noise field of the fire, lightning and Rorschach effects: C94. |
| `PropInStep.v` | A whole network shows one animation: C95. |
| `PropOrder.v` | An order is obeyed everywhere for its hold time: C96. |
| `FancyNode.v` | The program of a fancy node: src/devices/fancy-node/fancy-node.cc lines 112-246. |
| `PropFancy.v` | C97: the program of a fancy node, and its return after an exhausted battery. |
| `PropMotion.v` | C98-C102: what the rainbow, the colour cycle, the two bump effects, the noise effects and the swinging lights draw, and how the pictures move. |
| `PropStartUp.v` | How a network starts: C104. |
| `PropPowerUp.v` | From power-up to one animation: C105. |
| `PropUnstarved.v` | A network without orders does not starve its master: C106. |
| `PropFailOver.v` | When the master disappears: C109. |
| `Bench.v` | Model of two small parts: the resistor-ladder buttons, src/devices/controller/analog-button.cpp and analog-button.h, and the radio of the tests, lib/fake-radio/FakeRadio.cpp. |
| `PropBench.v` | The resistor-ladder buttons and the radio of the tests: C107, C108. |
| `PropMerge.v` | When two networks meet: C110. |
| `PropConsole.v` | The colour of a lighting console on every node: C111. |
| `PropAir.v` | Networks over the real radio: C112. |
| `Seed.v` | The random source of a device: who seeds it, and when. |
| `PropSeed.v` | The wait after power-up on real devices: C113. |
| `PropFair.v` | How random the choices of a node are: C114. |
| `PropPicture.v` | C115, C116: what the pride flag and the spark draw and how they move; the stop light and the fireflies on the controller's own LEDs. |
| `FakeNet.v` | Model of the simulated network the integration tests run on: test/FakeNetwork.cpp and .hpp, and test/RadioIntegrationTest.hpp. |
| `FakeNetFacts.v` | Proof support: the simulated network at the level of packet values. |
| `PropFakeNet.v` | C117: what the simulated network of the integration tests does. |
| `SimFacts.v` | Proof support for C118: the simulated network after one node took over. |
| `PropSim.v` | C118: in the simulated network of the integration tests one node takes over and stays the only master. |
| `PropPalettes.v` | C119: which colours the palettes have, and the palette display on strips shorter than the palette. |
| `PropFailSim.v` | C120: whenever the simulated network of the integration tests has fallen silent, one node takes over and stays the only master. |
| `AgreeFacts.v` | Proof support for C121: how the effect of the master gets to everybody in the simulated network. |
| `AgreeRun.v` | Proof support for C121: runs, and ids that follow the random numbers. |
| `PaceRun.v` | When the master of the simulated network chooses effects. |
| `PropAgree.v` | C121: in the simulated network of the integration tests everybody soon shows the effect of the master. |
| `Timetable.v` | When the master of the simulated network transmits, and when the packets of the network have been delivered. |
| `PropTimes.v` | C123, C124: when the master of the simulated network transmits, when nothing is in the air, and what follows for two of the integration tests. |
| `Reboot.v` | The controller's way into its boot loader: the top of `setup` in src/devices/controller/controller.cpp lines 400-435. |
| `PropReboot.v` | Pressing the controller's reset button: when the boot loader runs. |
| `CtrlProgram.v` | The program of the controller: src/devices/controller/controller.cpp lines 404-585. |
| `PropCtrlProgram.v` | C126: the program of the controller. |
| `Lull.v` | Proof support for C127: the simulated network between two packets of its master, and what replacing nodes does to it then. |
| `Visits.v` | Proof support for C127: slaves of the simulated network are replaced, and the ids of the master follow its random numbers. |
| `PropComeGo.v` | C127: nodes of the simulated network are replaced while it runs. |
| `UnitTests.v` | Model of two of the project's own test files: test/RadioStateMachineTest.cpp and test/NetworkManagerTest.cpp, statement by statement, over the models of the code under test (Rsm.v, NetMgr.v) and of the radio of the tests (second half of Bench.v). |
| `UnitFacts.v` | Proof support: running the statements of the test files on symbolic random numbers and memory contents. |
| `UnitRuns.v` | Proof support: the runs of the state machine's unit tests. |
| `UnitManager.v` | Proof support: the runs of the network manager's unit tests. |
| `PropUnitTests.v` | C128: what the unit tests of the state machine and of the network manager show, for every value of rand() and whatever the memory of uninitialised packets holds. |
| `LossFacts.v` | Proof support for C129: the simulated network when packets get lost. |
| `PropLoss.v` | C129: the simulated network of the integration tests when packets get lost. |
| `EffectTests.v` | Model of test/EffectsTest.cpp and test/LedManagerTest.cpp, statement by statement, with the test bench of UnitTests.v. |
| `EffectRuns.v` | Proof support: running the tests of the effects. |
| `PropEffectTests.v` | C130: what the tests of the effects and of the LED manager show. |
| `SmallTests.v` | Model of the small unit tests: test/ColorPaletteTest.cpp, MathTest.cpp, StripDescriptionTest.cpp, RadioPacketTest.cpp, PerlinTest.cpp and InvalidPacketTest.cpp. |
| `PropSmallTests.v` | C131: what the small unit tests show. |
| `RsmClock.v` | RadioStateMachine once more, with a clock that moves while a call runs: src/generic/RadioStateMachine.cpp lines 23-268. |
| `ClockFacts.v` | Proof support: one radio tick with a moving clock (RsmClock.v). |
| `SpecClock.v` | Specification vocabulary for histories with a moving clock (RsmClock.v). |
| `ClockRun.v` | Proof support: histories of a node whose clock moves while a call runs (RsmClock.v). |
| `PropClock.v` | C132: what a node promises although its clock moves while a call runs. |
| `PropClock2.v` | C133: what a node does with packets does not depend on how its clock moves while a call runs. |
| `SpreadRun.v` | Proof support for C135: a new effect of the master of the simulated network is everywhere after two rounds when nothing was in the air before. |
| `PropSpread.v` | C135: how fast a new effect of the master reaches everybody in the simulated network, and what the integration test of the effect index shows. |
| `PropChoice.v` | C135, continued: which effects the masters of the simulated network choose, and when the integration test of the effect index passes. |
| `PropIntegration.v` | C134: what the integration test of a disappearing master shows. |
| `PropDropOut.v` | C136: what the integration test of nodes that drop out shows. |
| `PropMildLoss.v` | C137: what the two integration tests with packet loss show. |
| `TieFacts.v` | Proof support for C138: several nodes of the simulated network whose waits end at the same time. |
| `PropTie.v` | C138: in the simulated network of the integration tests, nodes whose waits end at the same time settle among themselves who stays the master. |
| `PropTieLater.v` | C139: in the simulated network of the integration tests, nodes whose waits end at the same time after the master has disappeared settle among themselves who takes its place. |
| `PropDrift.v` | A network whose clocks run at different speeds: C140. |
| `Settled.v` | A network with a settled master: what follows once it is known that nobody else takes over. |
| `PropLossy.v` | A network that loses packets: C141. |
| `PropLossyOrder.v` | An order in a network that loses packets: C142. |
| `PropLossyStart.v` | How a network starts, or goes on without its master, when packets get lost and clocks differ: C143. |
| `PropInAndOut.v` | Nodes that come and go: C144. |
| `DeadRadio.v` | What the programs do when the radio does not start: Begin() of src/arduino/RadioHeadRadio.cpp lines 7-16 returns false. |
| `PropDeadRadio.v` | A device whose radio does not start: C145. |
| `PropMeeting.v` | Networks that meet, when packets get lost and clocks differ: C146. |
| `PropTraffic.v` | How much a node transmits: C147. |
| `PropQuietAir.v` | How much a settled network says: C147 for all nodes together. |
| `PropBeats.v` | A master that is called often enough is heard often enough: C147 from below. |

## 3. Properties: what is modelled and how each is proved

The English statements are in `properties.jsonl`.  Theorem names start with the id.

| id | property | model, scope and method |
|---|---|---|
| C01 | Heartbeat packets carry any 32-bit time exactly | Packet.v; all previous packet contents, all times, both builds. Arithmetic on bytes. |
| C02 | Effect packets carry effect, hold time and palette exactly | Packet.v; all previous contents, all byte triples, both builds. |
| C03 | Control packets carry hold time and colour exactly | Packet.v; all previous contents, all values, both builds. |
| C04 | Typed readers accept exactly their own packet kind | Packet.v; equivalence on the host build, totality and the exact misreading on the device build. |
| C05 | Packet equality means same id, type, length and payload | Packet.v; equality characterised, then its laws. |
| C06 | Radio frames preserve id, type and payload | HwRadio.v; round trip over all packets and receiving buffers; the lost length is refuted with a witness. |
| C07 | Packets without payload are never delivered over the real radio | HwRadio.v; all frames of at most 3 bytes, hence all packets of length 0. |
| C08 | Relayed packets die after one hop on the real radio | HwRadio.v for single packets, Rsm.v over all histories for whole nodes. |
| C09 | Radio buffer accesses stay in bounds | HwRadio.v; exact conditions for undefined behaviour (equivalences). |
| C10 | A node accepts a packet exactly when its id is not one of the last five ids it transmitted | NetMgr.v; the circular buffer refines 'last five ids transmitted', invariant over histories; lifted to whole nodes. |
| C11 | Relaying is exact: once, unchanged, and only when accepted | NetMgr.v; one call, all states. |
| C12 | A node does not accept its own packet back too early | NetMgr.v; over histories, on top of C10. |
| C13 | Packet id 0 is invisible to a young node | NetMgr.v; over histories, on top of C10. |
| C14 | Ids of originated packets | NetMgr.v; all random draws; the documented range refuted for the host build. |
| C15 | Flooding terminates when at most five ids are in flight | Flood.v; any number of nodes, arbitrary medium; invariant over network runs. |
| C16 | Six ids in flight can circulate for ever | Flood.v; a schedule constructed by induction for every bound. |
| C17 | A node takes over only after five seconds of silence | Rsm.v; all histories before the 2^32 ms wrap; timer invariant against the history. |
| C18 | A silent network gets a master within seven seconds | Rsm.v; as C17, for the state reached by any history. |
| C19 | A slave that keeps hearing heartbeats stays slave | Rsm.v; all histories before the wrap, from C17. |
| C20 | Master heartbeat cadence | Rsm.v; all histories before the wrap. |
| C21 | Traffic starves timers | Rsm.v; all histories; induction on the number of ticks, and a constructed run for every length. |
| C22 | Master election | Rsm.v; all states reached, all draws. |
| C23 | Only heartbeat, claim and silence change the role | Rsm.v; all steps of all histories. |
| C24 | Unknown packet types are inert | Rsm.v; all states; no-failure on both builds. |
| C25 | Network time follows the last heartbeat exactly | Rsm.v; all histories, any number of clock wraps. |
| C26 | All nodes agree on the network time | PropNetTime.v; any number of nodes and offsets; invariant over global histories. |
| C27 | Effect adoption | Rsm.v; all reached states, plus the converse (nothing else changes the effect). |
| C28 | Effect index and current effect packet agree, except at power-up | Rsm.v; all histories; the power-up disagreement refuted by a witness. |
| C29 | The master picks only configured effects and palettes | Rsm.v; all histories. |
| C30 | Hold time is honoured by a master | Rsm.v; all histories before the wrap. |
| C31 | A hold time of zero stops automatic changes | Rsm.v; all histories before the wrap; the positive half (own changes every minute) included. |
| C32 | Current effect is re-broadcast every two seconds | Rsm.v; all histories before the wrap. |
| C33 | Effect cadence survives a change of master | Rsm.v for a clock that stands still during a call, BeginMasterRace.v for any moving clock; the race refutes the documented behaviour by a witness. |
| C34 | Repeated announcements do not reset the cadence | Rsm.v; both halves proved, high effect numbers refuted. |
| C35 | Timers and the 49-day clock wrap | Rsm.v; universally quantified failures of the timers at the wrap, in unbounded real time. |
| C36 | SetEffect adopts, broadcasts and holds | Rsm.v; the hold of a slave's own SetEffect is refuted. |
| C37 | SetEffect with a control packet misreads it | Rsm.v; all control packets, both builds. |
| C38 | No packet can crash a device node's radio logic | Rsm.v; all histories; exact conditions on the host build. |
| C39 | Slaves are quiet | Rsm.v; all steps of all histories. |
| C40 | A lossy but bounded network keeps its master alone | PropPair.v; two joint histories before the wrap; composition of C20 and C19. |
| C41 | Election between two masters can leave none or two | PropPair.v; the outcome as a function of the draws for all states, and concrete elections. |
| C42 | Tick runs the radio once the first time and twice afterwards | PropTick.v; all histories of Tick. |
| C43 | Mirroring | Maths.v; all lengths and indices. |
| C44 | Position on a circle | Maths.v; all lengths and indices. |
| C45 | Threshold sine | Maths.v; every FastLED meeting the contract. |
| C46 | Palette lookup wraps | Palette.v; all palettes. |
| C47 | Gradient hits palette colours | Palette.v; all palettes of the given sizes, every FastLED meeting the contract; exact trap conditions for other sizes. |
| C48 | Gradient stays between neighbouring colours | Palette.v; all positions; linear error bound included. |
| C49 | Gradient hue takes the short way round | Palette.v; all positions. |
| C50 | Wrapping gradient closes | Palette.v; documented claim refuted; exact repair proved for all palettes. |
| C51 | Effect table layout | LedMgr.v; all registration sequences by induction; the total of 256 as exact failure. |
| C52 | Unique effect numbering | LedMgr.v; all registration sequences. |
| C53 | Effects are freed exactly once | LedMgr.v; all registration sequences. |
| C54 | Strip flags | Device.v; all flag lists. |
| C55 | Rendering reaches every LED with the right colour | LedMgr.v; all devices up to 255 LEDs, all colour functions. |
| C56 | LED buffer safety | LedMgr.v; equivalence over all devices. |
| C57 | Palette index from the air is unchecked | Effects.v, Show.v, Rsm.v; which effects trap, and acceptance from the radio. |
| C58 | Effects never trap on valid input | Effects.v; all effects of the table, all valid inputs, every FastLED meeting the contract. |
| C59 | Nodes in sync show the same | Show.v, Rsm.v; composition with C25 and C27. |
| C60 | Fixed-colour effects | Effects.v, Show.v. |
| C61 | Firefly devices blink together in the sync phase | Effects.v; all offsets and times. |
| C62 | Spark tail stays within its brightness table | Effects.v; all strips and times; the jump at the 32-bit product is refuted. |
| C63 | Pride stripes wrap wrongly | Effects.v; all times; the seam refuted. |
| C64 | Random changes never pick a special effect | Show.v, Rsm.v; all histories. |
| C65 | Controller: what is sent is what was selected | Controller.v; all press histories since power-up. |
| C66 | Controller display mapping | Controller.v; all positions, all previous LED contents. |
| C67 | Battery cut-off has hysteresis | Battery.v; all reading sequences; IEEE single precision as in Coq's SpecFloat. |
| C68 | Stored device survives power loss while writing | Flash.v; all crash points and old contents; stored pointers refuted as a device description. |
| C69 | Animations repeat and survive clock wrap | Effects.v; all strips, LEDs, times. |
| C70 | Mirrored strips are symmetric | Effects.v; all strips, LEDs, times. |
| C71 | Rorschach is symmetric about the middle | Effects.v; all strips, LEDs, times. |
| C72 | Stop light sequence | Effects.v; all strips, LEDs, times. |
| C73 | Blink effects | Effects.v; all strips, LEDs, times. |
| C74 | Palette display | Effects.v; all strips, LEDs, times. |
| C75 | Controller colour mode | Controller.v; all states. |
| C76 | Controller can send a stale packet | Controller.v; finding, proved for all selections. |
| C77 | Controller palette mode | Controller.v; all states; the shifted blocks refuted. |
| C78 | Controller button lamps | Controller.v; all states; right lamps refuted. |
| C79 | Controller never traps | Controller.v; invariant over all histories of passes. |
| C80 | Controller preview | Controller.v; all states reached. |
| C81 | Battery colour at start-up | Battery.v; all measured voltages; the fall back to red refuted. |
| C82 | Controller's low-battery light | Battery.v, Controller.v; all states. |
| C83 | DMX gateway transmits the console's colour | Dmx.v; all pass sequences. |
| C84 | DMX gateway around the clock wrap | Dmx.v; finding, all continuations. |
| C85 | DMX gateway's packet numbers | Dmx.v, NetMgr.v; all pass sequences, any number of id wraps. |
| C86 | A fed master keeps the colour | Rsm.v; all histories before the wrap. |
| C87 | Start-up animation shows every LED | Boot.v; all LED counts. |
| C88 | Watchdog | Boot.v; all sequences of pass durations; equivalence. |
| C89 | A node keeps showing | Node.v puts construction, start-up animation and main loop together; the last theorem shows why the palette hypothesis is needed. |
| C90 | Every effect has an origin | PropNetwork.v; induction over runs of the whole network; the medium may corrupt everything but type and content bytes. |
| C91 | A network left to itself keeps its pictures | PropNetSafe.v; combines C90, C29 and the drawing theorem behind C89. |
| C92 | One master for ever | PropOneMaster.v; induction over the run, using C10, C23, C39 and C40; the refuted theorem shows why the echo hypothesis is needed. |
| C93 | A newcomer catches up | PropCatchUp.v; uses C20, C27, C32. With the device radio the effect a master follows reaches others only if it is the master's own choice (C112). |
| C94 | Noise has no jumps | PropNoise.v; all points; assumes FastLED's lerp15by8 and ease8InOutApprox formulas, any random generator; the test's tolerance is refuted by a witness. |
| C95 | A settled network shows one animation | PropInStep.v; uses C40, C93, C20, C25, C39, C59. Assumes that no packet is under way when the run begins with a heartbeat of the master. Pictures are compared on devices, where the length field of packets is ignored. |
| C96 | An order is obeyed everywhere for its hold time | PropOrder.v; uses C95, C23, C30. The order is a set-effect packet (control packets are misread by SetEffect, C37). |
| C97 | A fancy node after an exhausted battery | PropFancy.v; uses C67, C42, C18, C20, C33, C89. That the radio sleeps shows in the model as a first radio tick without a packet. Device from the header (flash: C68). |
| C98 | Rainbow | PropMotion.v; gradient as described by C47-C50. |
| C99 | Colour cycle | PropMotion.v. |
| C100 | Bumps | PropMotion.v; the hump is FastLED's sin16 cut at zero. |
| C101 | Fire, lightning and Rorschach colours | PropMotion.v; FastLED's generator arbitrary; gradual change of the noise is C94. |
| C102 | Swinging lights | PropMotion.v. |
| C103 | Police lights | PropMotion.v; the effect is not in the built-in table, so the theorem is about the effect itself. |
| C104 | How a network starts | PropStartUp.v; uses C17, C23, C39, C92; clocks below the 49-day wrap. Two masters: see C22, C41. |
| C105 | From power-up to one animation | PropPowerUp.v; uses C104, C95, C27, C39. |
| C106 | No orders, no starvation | PropUnstarved.v; uses C104, C105; every accepted packet was originated by another node at most D ms before. |
| C107 | Resistor-ladder buttons | PropBench.v; the edge filter library is outside: its value and stability verdict are inputs. |
| C108 | The radio of the unit tests | PropBench.v; heap with live and dead objects; the test touches only pointers it was given. |
| C109 | Fail-over: when the master disappears exactly one node takes its place | PropFailOver.v; start-up theorems C104-C106 generalised from new nodes to nodes with any past; the moment is the node's timer, described by the history only. |
| C110 | Two networks that meet become one | PropMerge.v; uses C40, C22, C20, C93, C25. That m survives its own elections is a hypothesis: which master survives is chance, and possibly none does (C41; then C109 applies). |
| C111 | The console's colour on every node | PropConsole.v; uses C83, C86, C27, C60. That the roles stay (one master, the others slaves) is a hypothesis here; C92, C104-C106, C109 give it. The relays of the gateway's own packets carry no payload on devices (C06), so D is the direct way there. |
| C112 | Networks of real radios | PropAir.v; derives the assumptions of C106 from assumptions about frames. Packets without payload need not arrive; it is assumed that no packet carries one of the last five ids its receiver transmitted. |
| C113 | Devices switched on together all become master | Seed.v, PropSeed.v. The C library generator is a parameter; the contracts of rand and randomSeed are stated in Seed.v. The example uses newlib's generator (wait 6933 ms). |
| C114 | How random the choices of a node are | PropFair.v. A call depends on the numbers it draws and no others (local_step); probability is counting of raw numbers, no measure theory. |
| C115 | The pride flag | PropPicture.v; builds on C63, whose finding (the fade into red starts from green) stands. |
| C116 | The spark | PropPicture.v; builds on C62, which also has the jump when the product overflows. |
| C117 | The simulated network of the tests | PropFakeNet.v over FakeNet.v; the random generator all nodes share is modelled as one arbitrary sequence per node. Construction and release of objects other than packets are not followed. |
| C118 | One master in the simulated network | PropSim.v over FakeNet.v and SimFacts.v; the condition on random numbers is in PropAgree.v. The bound of 900 nodes keeps a heartbeat from waiting a second for the air. |
| C119 | The palettes have the colours they are named after | PropPalettes.v. The names are those of the comments in Effect.cpp; what red or teal looks like is left to the HSV conversion. |
| C120 | A network whose master disappears elects another | PropFailSim.v, SimFacts.v. A replacement while packets are still on the air or waiting is not covered by the second part; the first part applies once they have gone. |
| C121 | Everybody shows the effect of the master | PropAgree.v, AgreeFacts.v, AgreeRun.v. The bound of 499 nodes keeps a re-broadcast from waiting long enough to be overwritten twice. |
| C122 | When the simulated master chooses effects | PropAgree.v, PaceRun.v. |
| C123 | What the test of an unstable master tests | PropTimes.v over FakeNet.v. |
| C124 | The timetable of the simulated master | PropTimes.v, Timetable.v. |
| C125 | Two presses of the reset button start the controller's boot loader | PropReboot.v over Reboot.v. The clock library is modelled by the time it shows; C125_without_a_new_second_refuted is the finding. |
| C126 | The controller's program as a whole | PropCtrlProgram.v over CtrlProgram.v, Battery.v, Controller.v. |
| C127 | Nodes of the simulated network come and go | PropComeGo.v over FakeNet.v (support: Lull.v, Visits.v). Replacements happen at moments without a packet under way; with one under way see C117. |
| C128 | What the project's own unit tests show | PropUnitTests.v over UnitTests.v (support: UnitFacts.v, UnitRuns.v, UnitManager.v). The full reading of the last line of the two SetEffect tests is refuted. |
| C129 | The simulated network when packets get lost | PropLoss.v over FakeNet.v (support: LossFacts.v). That mild loss is harmless for all random numbers is refuted. |
| C130 | What the tests of the effects and of the LED manager show | PropEffectTests.v over EffectTests.v (support: EffectRuns.v). That every effect and every palette is drawn is refuted. |
| C131 | What the small unit tests show | PropSmallTests.v over SmallTests.v. That four tests of the noise pass for all random numbers, and that the invalid packets are harmless, is refuted. The test of the wrap-around needs the exact formulas of lerp15by8 and ease8InOutApprox. |
| C132 | What a node promises although its clock moves while a call runs | PropClock.v over RsmClock.v, SpecClock.v. Lifts the simplification that millis() has one value during a call; the order of the readings follows the source. That the cadence always survives a change of master is refuted. |
| C133 | What a node does with packets does not depend on how its clock moves | PropClock2.v over RsmClock.v, SpecClock.v: C10, C22, C23, C24, C27, C29, C32 and C39 once more, with a clock that moves during a call. |
| C134 | What the integration test of a disappearing master shows | PropIntegration.v over FakeNet.v. |
| C135 | A new effect of the master is everywhere after two rounds | PropSpread.v and PropChoice.v over FakeNet.v (proofs in SpreadRun.v). |
| C136 | What the integration test of nodes that drop out shows | PropDropOut.v over FakeNet.v. |
| C137 | What the integration tests with packet loss show | PropMildLoss.v over FakeNet.v. |
| C138 | A tie in the simulated network | PropTie.v over FakeNet.v and TieFacts.v; it drops the condition of C118 that one wait is strictly the shortest. |
| C139 | A tie after the master has disappeared | PropTieLater.v over FakeNet.v and TieFacts.v; it drops the condition of C120 that one wait is strictly the shortest, and adds that no change of the effect is due in the first second. |
| C140 | Clocks that run at different speeds | PropDrift.v; as C92 and C95, but clocks are arbitrary functions of an ideal time within stated bounds instead of that time plus a constant. Within one call the clock stands still (C132 lifts that for single nodes). |
| C141 | A network that loses packets | PropLossy.v; generalises C92, C95 and C140: instead of packets that all arrive, only a bound on how long a node goes without a heartbeat. C141_seven_seconds_are_too_long shows that some bound is needed. |
| C142 | An order in a network that loses packets | PropLossyOrder.v; C96 under the assumptions of C141. |
| C143 | Starting up in a network that loses packets | PropLossyStart.v; C104 under the assumptions of C141. |
| C144 | Nodes that come and go | PropInAndOut.v; facts shared with C141 and C142 are in Settled.v. |
| C145 | A device whose radio does not start | PropDeadRadio.v; the loops are in DeadRadio.v. |
| C146 | Networks that meet although packets get lost | PropMeeting.v; C110 under the assumptions of C141. That the others lose is not certain (C41); the theorem says what they need to stay. |
| C147 | How much a node transmits | PropTraffic.v, PropBeats.v, PropQuietAir.v; a count over all transmissions of a node, by an amortised argument over its three timers; for a network under the assumptions of C141. |

## 4. What is modelled and what is not

### Modelled, function by function (the comments of the definitions cite lines)

| code | model |
|---|---|
| `lib/radio/Radio.hpp`, `Radio.cpp` | `Packet.v`, all of it |
| `lib/types/Types.cpp`: `random` | `NetMgr.v` (both builds) |
| `src/generic/NetworkManager.*` | `NetMgr.v`, all of it |
| `src/generic/RadioStateMachine.*` | `Rsm.v`, all of it; once more with a clock that moves during a call in `RsmClock.v` (and `BeginMasterRace.v`) |
| `src/arduino/RadioHeadRadio.*` | `HwRadio.v`: `readPacket`, `sendPacket` |
| `lib/math/Math.*`, `Perlin.hpp` | `Maths.v`, `Effects.v` |
| `lib/color/ColorPalette.*` | `Palette.v` |
| `lib/device/StripDescription.hpp`, `DeviceDescription.hpp` | `Device.v` |
| `lib/effect/*` (all effects) | `Effects.v` |
| `lib/led_manager/LedManager.*` | `LedMgr.v` (table, rendering), `Show.v` (built-in table, current effect) |
| `src/arduino/FastLedManager.*`, `lib/fake-led-manager` | `LedMgr.v` (`SetLed`, `RunEffect`), `Boot.v` (start-up animation), `DeadRadio.v` (`FatalErrorAnimation`); `SetGlobalColor` is a single library call and not modelled |
| `src/devices/controller/controller.cpp`, `leds.*`, `buttons.*` | `Controller.v` (modes, display, sending), `Battery.v` (supervision) |
| `setup` of `controller.cpp` | `Reboot.v` (way into the boot loader), `CtrlProgram.v` (charge at start-up, the program as a whole) |
| `lib/battery/Battery.hpp`, `loop` of `fancy-node.cc` | `Battery.v` |
| `setup` of `fancy-node.cc` and the program as a whole | `FancyNode.v` |
| stored device in `node.cpp`, `fancy-node.cc` | `Flash.v` |
| main loop and watchdog of `node.cpp` | `Boot.v` (watchdog), `Node.v` (`setup` and `loop` as a whole) |
| `lib/device/Devices.hpp` | `Node.v` |
| `src/devices/dmx/dmx.cpp` | `Dmx.v` |
| seeding (`lib/effect/FireflyEffect.cpp` line 7, order of construction) | `Seed.v` |
| `src/devices/controller/analog-button.*`, `lib/fake-radio` | `Bench.v`; the edge filter's value and its verdict "stable" are inputs |
| `test/FakeNetwork.*`, `test/RadioIntegrationTest.hpp` | `FakeNet.v` |
| `test/RadioStateIntegrationTest.cpp` (`setEffectIndex`, `relectsMasterIfMasterDisappears`, `stableWhenNodesDropOut`, `stableWithMildPacketLoss`, `stableWithMildPacketLossAndNodesDropping`) | `PropChoice.v`, `PropIntegration.v`, `PropDropOut.v`, `PropMildLoss.v`; the other cases are runs of `FakeNet.v` in `PropSim.v`, `PropTie.v`, `PropTimes.v`, `PropFakeNet.v` |
| `test/RadioStateMachineTest.cpp`, `test/NetworkManagerTest.cpp` | `UnitTests.v` |
| `test/EffectsTest.cpp`, `test/LedManagerTest.cpp` | `EffectTests.v` |
| `test/ColorPaletteTest.cpp`, `MathTest.cpp`, `StripDescriptionTest.cpp`, `RadioPacketTest.cpp`, `PerlinTest.cpp`, `InvalidPacketTest.cpp` | `SmallTests.v` |

### Simplifications

* Clock: in the theorems about a node `millis()` has one value during one call of
  a public function.  `RsmClock.v` lifts this: there every reading may differ, and
  C132 and C133 carry the theorems about a node over.  In the theorems about networks
  the clocks of the nodes differ by constants; C140 lifts that.
* RadioHead: a frame handed to the library appears, if at all, as the same
  bytes at a receiver; loss, duplication and order are up to the theorems'
  hypotheses.  No CRC, no addressing, no timing.
* FastLED: the record `fastled` with contract `fl_ok` (`Fastled.v`): results in
  range (`sin16` within +-32767, byte functions in bytes), interpolations lie
  between the ends, move one way, are not ahead of the exact value by more than
  one fraction step nor a whole unit behind it, and a colour of value 0 is black.
  `qadd8` and the division of a colour are modelled exactly.  `fl_ref` is one
  implementation that meets the contract (proved), so the contract is not
  contradictory.  Gamma, power limit and dithering are not modelled.
* Flash: erasing is atomic, bytes are written upwards one at a time, writing can
  only clear bits.  Power may fail between any two bytes.
* Battery: the measured and filtered voltage is an input; the comparison and the
  colour use IEEE single precision as defined by Coq's `SpecFloat`.  The two
  timers of the supervision are inputs too (due or not due in a pass).
* Buttons: the debounced state of each button in each pass is an input.
* DMX: the three channel values in each pass are inputs.
* C library: `rand()` after `srand(s)` is any function of `s` and the number of calls (`Seed.v`);
  everywhere else the random source is an arbitrary sequence of numbers.
* Watchdog: its period is a parameter; each pass has a duration.
* Heap: `new`/`delete` succeed; C53 tracks which effects are released.

### Not modelled

* `debug_printf` and printing, `lib/debug`.
* Radio physics, SPI/DMA, the jump into the boot loader, option bytes.
* `lib/simulator`: passes a pointer where `LedManager` wants a reference and a
  vector of pointers where `DeviceDescription` wants values, so it does not
  compile against the current headers; it also never ticks the radio state machine.
* `test/`: of the test cases only `DebugTest`.
* `src/devices/trellis/trellis.ino`, `src/devices/remote/remote.ino`: do not match
  the current API and do not compile against it.
* `src/devices/range_test`: passes a vector of pointers where `DeviceDescription`
  wants values, and its build target is commented out.

## 5. Trusted base

* Coq 8.16.1: its kernel, including the `vm_compute` conversion used for concrete
  examples and refutation witnesses.
* `Print Assumptions` is run after every theorem in the `Prop*.v` files.  It prints
  "Closed under the global context" for every one of them (section 8): no axiom is
  used, neither of ours nor of a library.  Only the Coq standard library is
  imported.  (`vcheck` lists seven axioms of `Coq.ssr.ssrunder` under
  `library_axioms`: they are part of standard library modules that are loaded, and
  no theorem depends on them.)
* No `Axiom`, `Parameter`, `Admitted`, `admit`, section-less `Variable`, functor,
  module type, plugin, or switched-off check.
* The reading of the C++ source recorded in the comments of the model files, and the
  simplifications of section 4.
* That the theorem statements say what `properties.jsonl` says in English.

## 6. Findings

Where the code does not do what its documentation, comments or users expect.  Each is
proved about the model unless marked (read), which means seen in the source only.

Radio and network
1. `readPacket` never sets the packet's length, so on devices a relayed or
   re-broadcast packet has no payload and is lost: no multi-hop relaying (C06, C08), and a
   master cannot pass on an order it received: nodes that join later do not learn it (C112).
2. Claim-master packets have no payload and are never delivered on devices (C07).
3. Duplicate suppression fails beyond five ids: six ids can circulate for ever (C16).
4. On the host build ids 0 and 65535 can be drawn; id 0 is dropped by fresh nodes (C13, C14).
5. An election between two masters can leave none or two (C41).
6. A flood of packets starves all timers (C21).

Effects in the network
7. A master that accepts a packet with hold time 0 never changes the effect again (C31).
8. Becoming master exactly 60000 ms after the last change, or a little earlier if the clock
   moves meanwhile, stops automatic changes (C33, C132).
9. At the wrap of the 32-bit clock timers fire at once or never again (C35).
10. Effect numbers from 128 on always count as changed (C34).
11. At power-up a node reports effect number 0 but shows and announces effect 1 (C28); in the
    first minute a network's master reports 0 and all others 1 (C121).
12. `SetEffect` with a control packet reads its delay as effect and its red channel as hold
    time; on the host it aborts (C37).
13. A slave's own `SetEffect` hold time is not honoured once it becomes master (C36).
14. A slave holding a control packet aborts on the host when a set-effect packet repeats its
    effect index; zero effects or palettes divide by zero (C38).
15. `FakeNetwork::TransmitPacket` reaches no node, so `InvalidPacketTest` never delivers its packets (C117).
15a. A master can lose the election against its own heartbeat when a relay returns it after
    five further transmissions (C92).

LEDs and effects
16. A palette index of 22 or more from the air is undefined behaviour (C57); a node that
    receives such a packet does not complete that pass of its loop (C89).
17. More than 255 LEDs: out-of-bounds writes (C56); 0 or 256 LEDs: division by zero at
    start-up (C87); mirroring an empty strip divides by zero (C43).
18. The radius of `GetPosOnCircle` wraps from 51 LEDs on (C44).
19. The wrapping gradient does not close as documented; from 18 colours on it can deviate
    further; palettes of 256/257 colours divide by zero; hues exactly 127 apart go the
    long way (C47, C49, C50).
20. Pride fades into stripe 0 from stripe 3's colour (C63).
21. Firefly on a controller strip of more than 32 LEDs shifts too far (C58).
22. Spark's head jumps when time x length passes 2^32 (C62); swinging lights jump when the
    network time wraps (C69).
23. The stop light leaves LEDs dark between the lamps (C72).
23a. The tolerance of 8 that `PerlinTest` allows between neighbouring noise values does not
    hold at every point: at (489, 253) they differ by 12.  Proved bound: 16 per step (C94).
24. A total of 256 registered effects makes the effect lookup divide by zero on devices (C51).

Devices
25. The controller sends a stale packet when send is pressed in the first pass after power-up
    or after palette mode (C76); lamps of right buttons follow left ones (C78); the right column
    of palette mode is shifted (C77).
26. An overfull battery shows red (C81); the controller's low-battery light stays lit after
    recovery in two modes (C82).
27. The stored device description contains raw pointers (C68); `FlashClass` reads 108 bytes past
    the record (read).
28. The DMX gateway stops repeating for ever, or floods, around the clock wrap (C84); its first
    packet is dropped by fresh nodes (C85).
29. The watchdog is fed in the seventh pass and then in every sixth, not every fifth as the
    comment says (C88).
30. The simulator and the range test do not compile against the current headers (read).
31. A fancy node that returns after an exhausted battery takes over at once although the network
    has a master, and changes the effect of the whole network if it was off for a minute (C97).
32. With a one-colour palette the rainbow effect does not move on tiny strips: the wave computed
    there is used as a position on the palette (C98).
33. The blue bar of the police effect is one LED shorter than the red one (C103).
34. Two nodes powered up together whose random waits end within the travel time of a packet both
    become master (C104).
35. The generator is seeded only after the state machine drew its power-up wait, so all devices
    wait equally long, and devices switched on together all become master (C113).

Test harness
36. `resetMaster` asks node 0 in every round: it resets node 0 or nobody, so
    `relectsMasterIfMasterDisappears` tests nothing when another node is the master (C117).
37. A radio holds one packet to send: a heartbeat and a re-broadcast in the same tick, or a packet
    that waits for the air, overwrite each other, so packets vanish with packet loss 0 (C117).
38. The fixture constructs its network before `SetUp` seeds the generator, so the nodes' first
    waits do not follow the fixed seed (read).
39. Two nodes whose first waits end in the same millisecond both become master (C118). They
    settle within as many rounds as there are nodes who stays it, unless their first heartbeats
    have the same id; then both stay (C138).
40. `resetMaster` asks node 0 in every round of its loop, so it never replaces another master.
    `changesEffectWhenMasterNotStable` therefore resets nobody unless node 0 leads, and when
    node 0 leads it fails for nearly every seed (C123).
41. When the controller marks its clock before the software reset (line 426) it does not restart
    the second, as it does in line 435.  If the library keeps the running second, a second press
    of the reset button is lost when the restart lasts into the next second (C125).
42. The last line of the two `SetEffect` tests compares what `GetSetEffect` returns with itself
    (it returns a pointer to the same member each time).  What the line is meant to say, that the
    node returns to its earlier effect, is false (C128).
43. Five unit tests fail by chance: `doesElectionAndBecomesSlave`, `doesElectionAndBecomesMaster`
    and `send_sendsPacket` for one random number in 65535 each, `masterSendsSetEffect` for about
    two in 255, `masterRespectsSetEffectDelay` for one in 255; C128 states for which.
44. Packet loss has no safe rate: `stableWithMildPacketLoss` passes only for dice that leave every
    slave in contact with the master.  If all dice hit there is no round with one master (C129).
45. `EffectsTest` never draws the effects 27 to 34, and `allColorPalettes` draws every effect with
    palette 0 only: each effect is marked as done after its first palette (C130).
46. Four of the five tests in `PerlinTest` fail for some random numbers; only the wrap-around of the
    plain coordinates keeps within 8 (C131).
47. `InvalidPacketTest` has two networks: its own hides the one `runTicks` drives, so the packets go to
    a network that is never run.  Its data parameter is unused too.  On the host build an effect of
    the wrong length would stop the program (C131, C38).
48. `setEffectIndex` expects effect 1 not to be shown, while its comments say the seed is chosen so that
    it is effect 1, and that 0 is ruled out.  It passes exactly if the third choice is not 1: there
    are random numbers for which correct nodes fail it, and others for which it passes with
    everybody showing effect 0 (C135).
49. `relectsMasterIfMasterDisappears` passes without any re-election unless node 0 is elected (C134).
50. `stableWhenNodesDropOut` does not count the rounds in which the network may lack a master: it
    replaces nodes, waits 10000 rounds without looking, and only then counts.  A replaced master
    means at least 997 rounds without one, and the test passes (C136).
51. `max_bad_ticks` of the integration tests is never reset between runs: it counts all bad rounds
    that follow a bad round, not the longest run, and is never more than `total_bad_ticks`.  Where
    both are compared with 10 the first comparison tests nothing (C136).

## 7. Testing the theorems

`seeded/LOG.jsonl` lists edits of the model in a scratch copy, each imitating a realistic bug,
with the claim it breaks and the theorems that no longer hold.  "failed" are lemmas and
theorems whose own proof broke; "tainted" are theorems that rest on a broken one.  Where a
theorem survived although its English claim had become false it was tightened.

## 8. Print Assumptions

Every theorem below: `Closed under the global context`.

* C01: `C01_heartbeat_roundtrip`
* C02: `C02_set_effect_roundtrip`
* C03: `C03_control_roundtrip`
* C04: `C04_host_readers_guarded`, `C04_device_readers_total`, `C04_device_control_misread`
* C05: `C05_equality_meaning`, `C05_equality_laws`
* C06: `C06_frame_roundtrip`, `C06_length_lost_refuted`
* C07: `C07_empty_packets_never_delivered`
* C08: `C08_relay_dies_after_one_hop`, `C08_relays_and_claims_lost`, `C08_learned_effect_not_passed_on`, `C08_own_news_arrives`
* C09: `C09_send_bounds`, `C09_receive_bounds`
* C10: `C10_accept_iff_not_recent`, `C10_node_accepts_iff_not_recent`
* C11: `C11_relay_exact`
* C12: `C12_own_echo`
* C13: `C13_id_zero`
* C14: `C14_originated_ids`, `C14_host_range_refuted`
* C15: `C15_flood_terminates`
* C16: `C16_storm`
* C17: `C17_takeover_only_after_silence`
* C18: `C18_silent_network_gets_a_master`
* C19: `C19_slave_with_contact_stays_slave`
* C20: `C20_heartbeats_apart`, `C20_heartbeats_carry_network_time`, `C20_heartbeat_due_is_sent`
* C21: `C21_accepted_packet_hides_timers`, `C21_traffic_starves_timers`, `C21_starvation_possible`
* C22: `C22_election`, `C22_election_bounds`
* C23: `C23_role_changes`
* C24: `C24_unknown_types_inert`, `C24_unknown_types_never_fail`
* C25: `C25_network_time_follows_heartbeat`
* C26: `C26_nodes_agree_for_ever`, `C26_lag_is_latency`
* C27: `C27_set_effect_adopted`, `C27_control_adopted`, `C27_nothing_else_changes_the_effect`
* C28: `C28_index_agrees_with_packet`, `C28_powerup`, `C28_fresh_master_announces_what_it_does_not_show_refuted`
* C29: `C29_own_changes_in_range`
* C30: `C30_hold_time_honoured`
* C31: `C31_zero_hold_stops_changes`, `C31_own_changes_every_minute`
* C32: `C32_rebroadcast_is_current`, `C32_rebroadcasts_apart`, `C32_rebroadcast_due_is_sent`
* C33: `C33_cadence_survives_change_of_master`, `C33_exactly_a_minute_stops_changes`, `C33_moving_clock`, `C33_race_stops_changes_refuted`
* C34: `C34_repetition_keeps_cadence`, `C34_repetition_of_high_effects_resets_cadence`, `C34_high_effects_refuted`
* C35: `C35_heartbeats_stop`, `C35_takeover_never`, `C35_takeover_at_once`, `C35_heartbeats_at_once`
* C36: `C36_set_effect_adopts_and_sends`, `C36_set_effect_holds`, `C36_slave_hold_refuted`
* C37: `C37_control_packet_aborts_on_host`, `C37_control_packet_misread_on_device`
* C38: `C38_device_never_fails`, `C38_host_abort_iff`, `C38_host_undefined_only_with_zero_counts`
* C39: `C39_slaves_are_quiet`
* C40: `C40_bounded_network_keeps_its_master`
* C41: `C41_outcomes`, `C41_election_leaves_no_master_refuted`, `C41_election_leaves_two_masters_refuted`, `C41_claims_demote_both_refuted`
* C42: `C42_tick_is_one_then_two_radio_ticks`, `C42_count`
* C43: `C43_mirror_is_distance_to_nearer_end`, `C43_mirroring`, `C43_index_reduced`, `C43_empty_strip`
* C44: `C44_angle`, `C44_radius`
* C45: `C45_range_and_zero`, `C45_monotone`, `C45_antitone_in_threshold`, `C45_no_threshold`
* C46: `C46_lookup_wraps`, `C46_empty_palette`
* C47: `C47_gradient_hits_colours`, `C47_every_colour_shown`, `C47_small_palettes`, `C47_too_large_palettes`
* C48: `C48_between_neighbours`, `C48_monotone`, `C48_linear`
* C49: `C49_other_way_round`, `C49_monotone`
* C50: `C50_wrap_closes_refuted`, `C50_closes_when_dividing`, `C50_closes_up_to_hue_zero`, `C50_eighteen_colours_refuted`
* C51: `C51_layout`, `C51_lookup_total`, `C51_too_many`
* C52: `C52_unique_numbers`
* C53: `C53_freed_exactly_once`, `C53_no_double_free_no_leak`, `C53_clear_effects`
* C54: `C54_flag_set_iff_given`, `C54_led_count`
* C55: `C55_every_led_right`, `C55_nothing_skipped`
* C56: `C56_no_bad_write_iff_at_most_255`, `C56_out_of_bounds`, `C56_reported_count`
* C57: `C57_invalid_palette_undefined`, `C57_invalid_palette_undefined_sometimes`, `C57_otherwise_harmless`, `C57_picture_undefined`, `C57_accepted_from_the_radio`
* C58: `C58_effects_never_trap`, `C58_oversized_shift`, `C58_whole_picture`
* C59: `C59_same_picture`, `C59_nodes_in_sync`, `C59_slave_follows_master`
* C60: `C60_control_colour_everywhere`, `C60_dark_everywhere`, `C60_colour_cycle_uniform`
* C61: `C61_offsets_are_valid`, `C61_together_in_the_middle_phase`, `C61_offset_fades_in_and_out`, `C61_fireflies_on_the_controller`
* C62: `C62_spark_tail`, `C62_spark_tail_circular`, `C62_at_most_eight`, `C62_head_moves_smoothly`, `C62_head_jumps_refuted`
* C63: `C63_pride_stripes`, `C63_smooth_at_the_seam_refuted`
* C64: `C64_own_changes_are_ordinary_and_valid`, `C64_every_ordinary_effect_reachable`
* C65: `C65_send_what_was_selected`, `C65_nothing_else_sends`, `C65_back_undoes_forward`, `C65_on_the_air`
* C66: `C66_display_map`, `C66_one_to_one`
* C67: `C67_off`, `C67_on`, `C67_between_keeps_mode`, `C67_volts`, `C67_controller`
* C68: `C68_never_a_partial_record`, `C68_repaired_by_next_start`, `C68_strips_are_not_stored_refuted`
* C69: `C69_animations_repeat`, `C69_no_seam_when_time_wraps`, `C69_swinging_lights_jump_refuted`
* C70: `C70_mirrored_strips_are_symmetric`, `C70_circular_fire_is_not_refuted`
* C71: `C71_rorschach_symmetric`
* C72: `C72_stop_light_sequence`, `C72_one_lamp_at_a_time`, `C72_stop_light_on_the_controller`
* C73: `C73_blink_one_third`
* C74: `C74_palette_display`
* C75: `C75_colour_mode_shows_the_choices`, `C75_colour_mode_sends_the_colour_beside_the_button`, `C75_colour_mode_sends_only_on_a_press`
* C76: `C76_stale_at_power_up`, `C76_stale_after_palette_mode`
* C77: `C77_palette_mode_sends`, `C77_palette_mode_display`, `C77_right_blocks_shifted_refuted`
* C78: `C78_lamps`, `C78_right_lamps_refuted`
* C79: `C79_never_traps`, `C79_device_loop_never_fails`
* C80: `C80_preview`
* C81: `C81_charge_colour`, `C81_overfull_looks_empty_refuted`, `C81_board_led`
* C82: `C82_warning_light`
* C83: `C83_console_colour_on_air`, `C83_change_sent_at_once`, `C83_keep_alive`
* C84: `C84_keep_alives_stop`, `C84_last_second_floods`
* C85: `C85_ids_count_up`, `C85_fresh_node_misses_only_the_first`
* C86: `C86_fed_master_never_changes`
* C87: `C87_startup_tests_every_led`, `C87_startup_takes_a_few_seconds`, `C87_startup_with_one_led`, `C87_no_leds_divides_by_zero`
* C88: `C88_runs_iff`, `C88_fast_passes_never_reset`, `C88_slow_pass_resets`
* C89: `C89_node_keeps_showing`, `C89_header_devices_are_drawable`, `C89_one_packet_stops_a_node`
* C90: `C90_effects_have_an_origin`
* C91: `C91_only_existing_palettes`, `C91_every_picture_is_drawn`
* C92: `C92_one_master_for_ever`, `C92_late_echo_dethrones_refuted`
* C93: `C93_master_keeps_announcing`, `C93_newcomer_catches_up`
* C94: `C94_noise_has_no_jumps`, `C94_noise_is_gradual`, `C94_noise_repeats`, `C94_tolerance_of_the_test_refuted`, `C94_fire_flickers_gradually`, `C94_rorschach_fades_gradually`
* C95: `C95_everybody_in_step`, `C95_from_then_on`, `C95_one_animation`
* C96: `C96_order_obeyed`
* C97: `C97_fancy_node_never_stops`, `C97_board_led`, `C97_radio_stands_still`, `C97_return_takes_over`, `C97_return_changes_effect`
* C98: `C98_rainbow_picture`, `C98_rainbow_moves`, `C98_rainbow_repeats_along_the_strip`, `C98_tiny_one_colour_stands_still`, `C98_tiny_wave_refuted`
* C99: `C99_colour_cycle_picture`
* C100: `C100_contrast_bumps_picture`, `C100_rainbow_bumps_picture`, `C100_humps_move`
* C101: `C101_fire_colours`, `C101_lightning_picture`, `C101_rorschach_picture`
* C102: `C102_swinging_picture`, `C102_dark_between_lights`, `C102_bright_at_a_light`
* C103: `C103_police_bars`, `C103_police_on_the_controller`, `C103_police_on_tiny_strips`
* C104: `C104_a_lonely_node_takes_over`, `C104_a_network_starts`, `C104_two_masters_at_start_refuted`
* C105: `C105_from_power_up_to_one_animation`
* C106: `C106_no_orders_no_starvation`, `C106_from_power_up_to_one_animation`
* C107: `C107_reported_iff`, `C107_one_at_a_time`, `C107_held_is_reported_once`
* C108: `C108_outbox`, `C108_memory`, `C108_nothing_to_read`, `C108_inbox`
* C109: `C109_fail_over`, `C109_taking_over_is_seamless`
* C110: `C110_masters_only_lose`, `C110_rival_has_to_win_every_time`, `C110_merged_network_is_one`
* C111: `C111_console_colour_on_every_node`
* C112: `C112_power_up_over_the_real_radio`, `C112_newcomer_is_not_told`
* C113: `C113_everybody_waits_equally_long`, `C113_devices_switched_on_together_all_become_master`, `C113_what_the_seed_decides`
* C114: `C114_every_effect_is_equally_likely`, `C114_every_wait_is_equally_likely`, `C114_odds_of_an_election`, `C114_heartbeat_ids_are_equally_likely`, `C114_an_election_is_a_coin`
* C115: `C115_stripes_have_the_colours_of_the_flag`, `C115_the_flag_moves`, `C115_all_colours_at_all_times`, `C115_tiny_strips_take_turns`
* C116: `C116_spark_picture`, `C116_spark_on_a_circle`, `C116_the_head_goes_round`, `C116_there_and_back`
* C117: `C117_the_simulation_is_sound`, `C117_one_round`, `C117_the_simulation_is_a_run`, `C117_injected_packets_reach_nobody`, `C117_resetMaster_resets_node_0_or_nobody`, `C117_resetMaster_resets_the_master_refuted`, `C117_nothing_gets_lost_refuted`
* C118: `C118_exactly_one_master`, `C118_electsOneMaster`, `C118_stableOverTime`, `C118_one_master_without_a_first_refuted`, `C118_one_master_with_repeated_ids_refuted`, `C118_varied_draws_give_distinct_ids`
* C119: `C119_the_palettes`, `C119_the_single_colours`, `C119_no_two_alike`, `C119_palette_display_in_time`
* C120: `C120_silence_ends_with_one_master`, `C120_a_replaced_master_leaves_silence`, `C120_the_network_replaces_its_master`
* C121: `C121_everybody_shows_the_masters_effect`, `C121_everybody_reports_the_masters_effect`, `C121_the_master_reports_another_number_at_first`, `C121_everybody_follows_a_new_master`
* C122: `C122_when_the_master_chooses`, `C122_the_nodes_agree_most_of_the_time`
* C123: `C123_reset_master_only_looks_at_node_0`, `C123_no_master_is_replaced`, `C123_the_replaced_master_keeps_its_number`, `C123_the_test_of_an_unstable_master_fails`
* C124: `C124_when_the_master_transmits`, `C124_the_air_clears`, `C124_clear_moments`
* C125: `C125_double_press_enters_the_boot_loader`, `C125_single_presses_run_the_application`, `C125_without_a_new_second_refuted`, `C125_without_a_new_second`, `C125_presses_without_a_new_second`
* C126: `C126_controller_never_stops`, `C126_start_up_pictures`, `C126_charge_does_not_linger`
* C127: `C127_exactly_one_master_however_nodes_come_and_go`, `C127_a_new_master_is_due`, `C127_nobody_before_one_after`, `C127_slaves_come_and_go`
* C128: `C128_tests_that_always_pass`, `C128_tests_that_depend_on_chance`, `C128_network_manager_tests`, `C128_the_effect_set_by_hand_ends_refuted`
* C129: `C129_one_master_despite_loss`, `C129_stableWithMildPacketLoss`, `C129_without_loss_everybody_stays_in_contact`, `C129_when_everything_is_lost`, `C129_mild_loss_is_harmless_refuted`, `C129_when_no_die_hits`, `C129_mild_loss_without_a_hit`
* C130: `C130_effect_tests_pass`, `C130_every_effect_is_drawn_refuted`, `C130_every_palette_is_drawn_refuted`, `C130_led_manager_tests_pass`
* C131: `C131_colour_tests_pass`, `C131_other_tests_pass`, `C131_passing_means_every_check_holds`, `C131_what_the_tests_of_the_mathematics_check`, `C131_wrap_around_passes`, `C131_noise_tests_pass_refuted`, `C131_invalid_packets_reach_nobody`, `C131_invalid_packets_are_harmless_refuted`
* C132: `C132_standing_clock`, `C132_device_never_fails`, `C132_takeover_only_after_silence`, `C132_silent_network_gets_a_master`, `C132_heartbeats_apart`, `C132_heartbeat_due_is_sent`, `C132_heartbeats_carry_network_time`, `C132_network_time_follows_heartbeat`, `C132_hold_time_honoured`, `C132_own_changes_every_minute`, `C132_cadence_survives_change_of_master`, `C132_cadence_survives_in_general_refuted`
* C133: `C133_election`, `C133_role_changes`, `C133_unknown_types_inert`, `C133_slaves_are_quiet`, `C133_set_effect_adopted`, `C133_control_adopted`, `C133_nothing_else_changes_the_effect`, `C133_rebroadcast_is_current`, `C133_node_accepts_iff_not_recent`, `C133_rebroadcasts_apart`, `C133_rebroadcast_due_is_sent`, `C133_own_changes_in_range`
* C134: `C134_the_test_passes_although_no_master_disappears`, `C134_the_replaced_master_is_missed`, `C134_the_test_when_node_0_is_elected`
* C135: `C135_clear_moments_for_half_an_hour`, `C135_a_new_effect_is_everywhere_after_two_rounds`, `C135_every_choice_is_drawn`, `C135_when_the_test_of_the_effect_index_passes`, `C135_the_test_of_the_effect_index_depends_on_the_seed`
* C136: `C136_the_test_of_nodes_dropping_out_passes`, `C136_stableWhenNodesDropOut_passes`, `C136_no_master_for_a_second_after_the_replacement`, `C136_what_the_counters_count`, `C136_max_bad_ticks_is_the_longest_run_refuted`, `C136_a_long_run_is_noticed`, `C136_what_passing_means`, `C136_max_bad_ticks_makes_no_difference`
* C137: `C137_what_passing_means`, `C137_no_such_test_crashes`, `C137_passes_while_everybody_hears_the_master`, `C137_stableWithMildPacketLoss_passes_without_a_hit`, `C137_the_tests_fail_when_everything_is_lost`, `C137_the_dice_decide`, `C137_without_a_hit_as_without_loss`, `C137_the_test_with_loss_and_nodes_dropping_passes`
* C138: `C138_one_prevails`, `C138_a_tie_leaves_one_master`, `C138_no_tie`, `C138_electsOneMaster`, `C138_stableOverTime`, `C138_one_master_with_equal_ids_refuted`
* C139: `C139_one_succeeds`, `C139_a_tie_after_a_silence`, `C139_no_tie`, `C139_the_network_replaces_its_master`
* C140: `C140_one_master`, `C140_times_stay_together`, `C140_everybody_shows_it`, `C140_one_animation`, `C140_crystals`
* C141: `C141_one_master`, `C141_times_stay_together`, `C141_told_once_shows_it`, `C141_one_animation`, `C141_seven_seconds_are_too_long`, `C141_covers_C140`
* C142: `C142_order_obeyed`
* C143: `C143_a_network_starts`, `C143_from_power_up_to_one_animation`
* C144: `C144_one_master`, `C144_times_stay_together`, `C144_one_animation`, `C144_order_obeyed`
* C145: `C145_a_node_blinks_red`, `C145_every_led_of_a_node`, `C145_the_converter_blinks`, `C145_the_controller_blinks`
* C146: `C146_masters_only_lose`, `C146_rival_has_to_win_every_time`, `C146_the_winner_is_the_only_master`, `C146_one_animation`
* C147: `C147_transmissions_bounded`, `C147_originals_bounded`, `C147_unaddressed_node`, `C147_settled_network`, `C147_heartbeats_at_least`, `C147_heartbeats_at_most`
