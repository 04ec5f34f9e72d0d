# Formal model of twuillemin/modes

## What is modelled and how

The repository is a pure decoder: bytes in, structures and text out, no
goroutine, no persistent state. The model is therefore a shallow embedding in
Gallina: one Gallina function per Go function. A second model (`Model/Memory.v`,
`Model/MemoryCode.v`) puts the four entry points in a shared memory, for what the
user may do around them: call them from several goroutines, and write the buffers
afterwards (C88-C90).

* `rocq/theories/GoBase.v` fixes the meaning of the Go constructs (sized
  integers as `Z` with explicit wrap-around, slices as lists with panicking
  index, `(T, error)` as `res T`, IEEE-754 floats as the standard library's
  `SpecFloat` at binary64).
* `rocq/theories/Gen/*.v` is **every** package under `/repo/pkg` except the
  readers and `geo`, translated by `tools/go2coq.py` (Go-subset parser in
  `tools/goparse.py`). Each definition carries the file and lines it models.
  The translation is committed; building does not run the translator.
* `rocq/theories/Model/*.v` is written by hand: the three readers
  (`ModesReader`, `AdsbReader`, `CommbReader`), the parity (`Crc`), `geo` twice
  (`Geo`: binary64, operation by operation as the Go text; `GeoReal`: the same
  formulas in exact real arithmetic), the line processing of the command (`Cmd`)
  and `main` itself (`Main`: arguments, options, file lines).
* `rocq/theories/Bits.v` is the specification vocabulary (`bits i j data`:
  bits i..j, 1 = most significant, as in Annex 10 / Doc 9871) and the proof
  machinery for it.
* `rocq/theories/Spec/*.v` the specifications: what the standards (Annex 10,
  Doc 9871, DO-260B) or plain mathematics say, written without the code's helpers.
* `rocq/theories/Proofs/*.v` proofs. `Proofs/Examples*.v` are concrete cases that
  meet the hypotheses of the theorems; `Proofs/UnitTests.v` replays the 51 unit
  tests of the repository with literal inputs (except those of `geo`) on the
  model, generated from the `_test.go` files by `tools/tests2coq.py`;
  `Proofs/GeoTests.v` replays the 7 tests of `geo` on positions, for every
  accurate trigonometric library.
* `rocq/theories/Properties/*.v` the final theorems and nothing else, each
  followed by its `Print Assumptions`. They are generated by `tools/mkprops.py`
  from `tools/claims.py` by copying the statements; the proof files are only
  `Require`d there, so that a statement can mention the specification and the
  model only.

### Trusted base

* Coq 8.16.1's kernel (including `vm_compute`).
* The faithfulness of the model to the Go text: the translator, the hand-written
  parts, and `GoBase`.
* The specifications in `Spec/`, which must be read against the standards.

### Axioms

No axiom is added. `Print Assumptions` prints:

| theorems | axioms |
|----------|--------|
| all of `Properties/ModeS`, `Crc`, `Access`, `CommB`, `Text`, `Report`, `Main`, `Reason`, `Reply`; `Adsb` and `CommBReason` except the ones below | none (closed under the global context) |
| `C29_ground_speed` in `Properties/Adsb`, `C76_coherency_reason` in `Properties/CommBReason`, all of `Properties/Track` | the four below |
| `Properties/Geo` (all but the two closed witnesses), `GeoAccurate`, `Geodesy`, the `located` and `told` theorems of `Properties/Squitter` (the others of this file: none) | the four below (a few without `classic` and `sig_not_dec`) |

* `ClassicalDedekindReals.sig_forall_dec`, `ClassicalDedekindReals.sig_not_dec`
  (standard library, construction of the real numbers)
* `FunctionalExtensionality.functional_extensionality_dep` (standard library)
* `Classical_Prop.classic` (standard library)

The Flocq library (no axioms of its own) is used to relate binary64 operations to
real arithmetic. `coqchk` lists in addition opaque module fields of the standard
library that it cannot see through (`Rdefinitions.RbaseSymbolsImpl.*`,
`ssrunder.Under_rel.*`); they are module-sealed definitions, not assumptions.

### Oracles: parts of the Go library taken as parameters

They are explicit arguments of the model's functions, universally quantified in
the theorems (no axiom):

* `ffmt`: the text of a float under `%f`/`%v` (any function; where a theorem needs
  it, any function giving a text of one line);
* `matan2`: `math.Atan2` in the airborne velocity (any function; for C77, any function whose error is at most 1e-14,
  `accurate_atan2` in `Spec/Track.v`, shown satisfiable in `accurate_atan2_exists`);
* `mathlib`: `math.Cos`, `Acos`, `Sin`, `Atan2`, ... in `geo`. Theorems hold for any library, or
  for any library whose functions are within 1e-14 of the mathematical ones
  (`accurate`, `Spec/MathLib.v`; shown satisfiable in `accurate_exists`; `accurate_distance` for the ground distance, shown
  satisfiable in `accurate_library_example`);
* `open`: the file system, in `Main` (any function), and `parseInt`: any function in C66 and C67,
  `strconv.ParseInt(s, 0, 64)`, modelled in `Model/ParseInt.v`, in C87.

### Simplifications

* In the shared memory of C88-C90, the functions that only read their bytes are one block: their bytes are read one by one,
  then the result is that of the first model. Maps of addresses, strings and structures are values (they are not written by
  the library). Interleavings are sequentially consistent.
* An `error` is represented by its text (what `Error()` returns); its dynamic type is
  not modelled.
* A `*T` result is a `T` (never nil when err is nil); a nil-able pointer field is
  an `option`.
* A `byte`-typed enumeration is `Z`.
* No fused multiply-add (the Go compiler does not fuse on amd64).
* Printing is modelled as the text printed on the standard output (a string); the
  standard error is not modelled.
* Slices are immutable lists: the code never writes to its input slice.

### Not modelled

The sample files of `/repo/example`, the test of the ground distance in `geo` (C54 covers it within its error bound), comments and `go.mod`. Every exported function of
`/repo/pkg` and of `/repo/cmd` is modelled.

## Properties

Proof methods: **bitnf** = reflexive normalisation of mask/shift expressions to
`bits i j data`, for all data; **sweep** = the property depends on a bounded field
(at most 13 bits) and is decided on all its values inside the kernel, then lifted
to all data; **alg** = induction / algebra; **real** = real analysis.

| id | modelled by | method |
|----|-------------|--------|
| C01-C05 | Model/ModesReader.v, Gen/modes_* | bitnf, case analysis on length |
| C06-C10 | Gen/modes_fields.v, Gen/bitutils.v | sweep over the code + bitnf; inverse to an independent encoder |
| C11-C18 | Model/Crc.v | alg: shift register = polynomial remainder (induction on the message); linearity; detection from syndromes (vm_compute on the 112 unit syndromes lifted by linearity) |
| C19-C34 | Gen/bds05..65, Gen/adsb*, Model/AdsbReader.v | bitnf per register, sweep for scaled floats |
| C35-C48 | Gen/bds*, Model/CommbReader.v | bitnf; list reasoning on the candidates |
| C49, C50, C52, C53 | Model/Geo.v | binary64 error analysis on top of the exact-arithmetic theory of CPR (Proofs/CprReal.v), with Flocq |
| C51 | Model/Geo.v, Model/GeoReal.v | real: monotonicity and bounds of the zone formula; error analysis |
| C54 | Model/GeoReal.v, Model/Geo.v | real: haversine = great circle angle; triangle inequality; binary64: error propagation through the haversine, the two roots and the arctangent, for an accurate library |
| C55-C59 | Gen/*, GoBase.v | induction on strings, case analysis; sweep over bytes for the labels |
| C60-C61 | Model/Cmd.v | composition of the above |
| C62-C65 | Gen/* accessors | sweep, bitnf |
| C66-C67 | Model/Main.v, Model/Cmd.v | induction on the characters of the file and on the list of words |
| C68-C71 | the `ToString` methods of the messages, Model/{Crc,AdsbReader,CommbReader}.v; rows in Spec/Reports.v | one lemma per message: each line of the text is the title, blanks and the value of its row; the values are one line because the fields are in range (from the reading theorems) |
| C72-C74 | Model/ModesReader.v, Model/AdsbReader.v, Gen/*; ordered lists of checks in Spec/Reasons.v | case analysis on the outcome of each reader: it agrees with the list of checks |
| C75-C76 | Gen/bds00 to Gen/bds60; ordered lists of checks in Spec/CommBReasons.v, on the bits for the readers and on the fields of an arbitrary message for CheckCoherency | as C72-C74; comparisons of float32 values are related to comparisons of rationals through Flocq (Proofs/FloatCompare.v) |
| C77 | Gen/bds09 GetTrack; Spec/Track.v (`bearing`: the angle whose sine and cosine give the signed components; what is assumed of math.Atan2) | case analysis on the angle; error propagation through the conversion to degrees, the addition of 360 and the rounding to float32 |
| C78-C81 | Spec/Squitter.v (an extended squitter written field by field, with its parity; what "received" means: ReadMessage, CheckCRC and ReadADSBMessage accept); the models of the readers, the parity, the accessors and the position functions | packing of fields (`be`, `bits`) and composition of the theorems of C04, C13, C21, C24, C27, C28, C29, C49, C50, C77; the theorems do not mention the layout of the readers, only what is sent and what is told |
| C82-C84 | Spec/Reply.v (surveillance, Comm-B, air-air and all-call replies written field by field, with the address or the interrogator added to the parity) | as C78-C81, with C04, C05, C14 |
| C85 | Spec/Reply.v (registers 2,0, 5,0 and 6,0 written field by field, signed fields in two's complement) | as C78-C81, with C37, C38, C42, C47, C48 |
| C86 | Spec/Squitter.v (`emergency_payload`) | as C78-C81, with C30 |
| C87 | Model/ParseInt.v (`strconv.ParseInt`, base 0, 64 bits), Spec/Integer.v (the integer literals of Go, as a grammar) | the loop of the digits and the check of the underscores against the grammar, by induction on the text; `main` on any way of writing the option, with C66 and C67 |
| C88-C90 | Model/Memory.v (arrays, slices as windows, programs of single reads, writes and allocations, interleaving of any number of them), Model/MemoryCode.v (ReadMessage, CheckCRC, ReadADSBMessage, ReadCommBMessage as such programs), Spec/Calls.v | a logic in which a program writes only what it allocates (Proofs/MemoryLogic.v: weakest preconditions over owned arrays, an invariant of all interleavings, termination by well-founded induction); each program is proved to give the result of the first model; the invariant then gives answers, absence of races and of sharing |
| C91 | Spec/Printout.v: the rows of the text for each kind of transmission, in terms of the fields the aircraft sent | composition: the transmission is read (C78-C86), the command prints its report (C60-C61), and each report shows its rows (C69-C71); rows whose value is known only by a property are weakened one by one (Proofs/Printout.v) |
| C92 | Spec/Cpr.v (short_move), as C49-C53 and C78-C79 | the zone index from two different positions: the displacement adds n(n-1)/turn times itself to the exact index, below one half (Proofs/CprMoving.v); then as C50, C53, C78, C79 |
| C93 | Spec/Noise.v (damage), Spec/Squitter.v, Spec/Reply.v | two transmissions of the same code differ by a codeword; the minimum distance and the bursts of C15; for the all-call replies, the remainders of one to three errors computed by the kernel (Proofs/Noise.v) |
| C94-C98 | Spec/Payloads.v: airspeeds, advisories and the other Comm-B registers, written field by field as the aircraft sends them, and what the library must tell | the message is the one of C28, C43, C39-C46 for the bits of its fields; the fields are read back (Proofs/Octets.v), the validity tests of the readers are met by the limits of the values (Proofs/Payloads.v, Proofs/Registers2.v) |
| C99, C100 | Spec/Statuses.v: the operational status and the target state, written field by field, and what the library must tell | as C94: the messages of C31 and C33 for the bits of the fields (Proofs/Statuses.v) |
| C101 | Spec/Frames.v: the rows of a frame, from what the library reads in it | the report of C60 and the texts of C69, C70, for every frame; then for the frames an aircraft sends (Proofs/Frames.v, Proofs/FramesApi.v) |
| C102 | Spec/Departures.v: the readers as they are, where the standard is not followed | the readers of C30, C31, C39, C40, C43 to C45 for every input, each equal to its as-built specification (Proofs/Departures.v) |
| C103 | Spec/ZoneTable.v: the 58 latitudes of the published table | the cosines at each latitude of the table bounded by their series computed with integers (`series_ok`, checked by computation for the 58 rows), then monotony of the cosine; binary64 through C51 (Proofs/ZoneTable.v) |
| C104 | Spec/Meanings.v: the meaning of every code of the 136 enumerated fields | evaluation of each `ToString` on every code of its table, and on an arbitrary code outside it (Proofs/Meanings.v); 17 codes are shown with another text (`misnamed`), hence partial |
| C105 | Spec/Lossless.v: the bytes rebuilt from the raw part of a message, and the fields it stands for | the frame is cut into fields of the widths of its format (`cut`), whose packing is the frame, and the parity is split off (Proofs/Lossless.v) |
| C106 | Spec/Precise.v: a library whose cosine and square are within 1e-15; positions clear of the changes of zones, equator included | a decoded latitude is exactly zero or at least a step away from it (`on_grid`), and one step is enough for the quotient to stay below 60 zones in binary64 (`zones_equator`); a biased library shows that 1e-14 is not enough (Proofs/Equator.v, EquatorApi.v) |
| C107 | Spec/Sent.v: the latitude a message stands for (A.1.7.3.c), and a library also accurate for arc cosines up to 1e-5 of -1 and 1 | an integer computation over the table (`rows_59`, `rows_60`) shows that no latitude of an airborne message is within 8e-8 degree of a latitude of the table, but 87 degrees in even messages, which binary64 holds exactly; 5e-8 degree is enough for the quotient to stay on its side in binary64 (`fine_margin`, `zones_fine`); hence the number of zones of every message (`zones_grid`), then the positions (Proofs/ZonesFine.v, ZonesGrid.v, Everywhere.v, EverywhereApi.v) |
| C108 | Spec/Flight.v: the history of frames heard (reports of one aircraft, and any other bytes), and a receiver that keeps the last position | the invariant is that the position held is within half a step of the last report, up to a fixed number of turns (`receive_near`, one step in the air or on the ground, from the cores of C107 and C112 with references up to 400 degrees); any other frame leaves it unchanged, because the frames the library accepts as squitters are those of Spec/Squitter.v (`receive_other`, from C105); induction over the history (`tracked`), start from a pair in the air (`tracked_from_pair`, C107), on the ground (`tracked_from_ground`, C112) or a known place (`tracked_from_place`) (Proofs/Flight.v) |
| C109 | Spec/Missing.v: a measure is unknown, a value or beyond the limit, and how it is coded (Doc 9871 Table A-2-9), independently for each field of a velocity squitter | the fields of the payload are read back one by one (`look`), then case analysis on each measure; `position_without_altitude_refuted`: altitude code 0 is no Gillham code, so the airborne position is refused |
| C110 | Spec/Session.v: the history of frames heard (operational statuses of one aircraft in the five formats of C99, and any other bytes), and a receiver that keeps the version and the supplements told last | each status is read whatever was known before (C99), any other frame leaves what is known unchanged (from C105 and C32); induction over the history; then the tables of C23 and C26 |
| C111 | Spec/Receiver.v: a table of all aircraft, of which a squitter accepted by CheckCRC changes the entry of its sender | `crowd`: by induction on the frames, the entry of an aircraft is what the receiver of one aircraft keeps, whose steps ignore every other address; `followed`: the invariants of C108 and C110 together, with the lemma that no frame can make the version one the library does not read (`learn_range`, from C32) |
| C112 | Spec/Sent.v: the latitude a surface message stands for | as C107; an integer computation (`ground_59`, `ground_60`) shows that the latitudes of surface messages are 5e-8 degree from the table of the standard but one, 45.5462672345... in odd messages, for which a finer bound on the quotient is computed (`ratio_42`, `margins_42`); the steps of the CPR decoders are those of C49, freed of the distance to the transitions (`local_core`, `surface_moving_core`) (Proofs/Ground.v, GroundApi.v) |
| C113 | Spec/Radar.v: what an aircraft told by any history of frames, and a receiver that keeps a list of addresses and two tables | one step per kind of frame: what CheckCRC returns for a reply is the sender of the frame when it is in the list, and no other (`resolved`, `one_sender`, from C14, C17 and C105); any other frame leaves the entry of the aircraft as it is (`scan_foreign`); induction on the history (`replies_kept`); every history is one (`histories`) (Proofs/Radar.v) |
| C114 | Spec/Said.v: the last squitter of an aircraft about a subject, and a receiver that keeps one thing per address | for a subject read whenever the message is about it, and only then, induction on the history (`last_noted`); the two conditions for identification, emergency and velocity from the readers' own theorems; a frame accepted for the address is a squitter of it (C93) (Proofs/Said.v) |
| C115 | Spec/Answers.v: the last register of a look that an aircraft answered since it is known, and a receiver of Comm-B replies | for each of three registers, what is picked among the candidates, and exactly when, from the theorems of C36 to C38 (`identity_kept`, `track_kept`, `heading_kept`); one step per kind of frame as for C113; induction on the history (`last_kept`); every history is one (Proofs/Answers.v) |
| C116 | Spec/Order.v: the frames of an aircraft among those heard, in their order | one frame: what a receiver holds of the aircraft after it only depends on what it held of it before, and is the same if another sent it (`note_same`, `listen_same`, `listen_by_other`); what CheckCRC returns with a list is what it returns without one, when that is in the list (`entry_reply`); induction on the sequences; for the replies, from the histories of C113 (Proofs/Order.v); the positions (Proofs/OrderPositions.v) |
| C117 | from the rows of C68: the value of a row determines its field (numerals are injective and free of separators; lists of octets; addresses), so two texts with the same lines have the same fields; for squitters, C105 and the uniqueness of the parity then give the frame |

Where the code deviates from a property, the property is stated in full, a
theorem with the suffix `_refuted` exhibits a concrete input on which it fails,
and a second theorem (suffix `_partial`) states what the code does instead, or what holds, for all inputs.

### Deviations of the code found by the proofs

| id | deviation |
|----|-----------|
| C26 | `adsb/messages/surface_position_v1.go:68`: version 1, type code 7 without NIC supplement A: the radius is reported as "greater than 0.1 NM" although the NIC is 8 |
| C30 | `bds61`: bits 17-56 of a "no information" status are not checked |
| C31 | `bds62`: selected altitude type read from bit 8 instead of 9; low bits of the subtype 0 heading from the wrong byte; the selected heading of subtype 1 is taken as sign-magnitude |
| C33 | `bds65`: a version 2 surface operational status reports ADS-B level 1 |
| C34 | a type code 0 airborne position loses the surveillance status and the antenna flag, and its altitude source is reported as GNSS |
| C39 | `bds07`: reserved bits 7-8 ignored (mask 0x1C) |
| C40 | `bds10`: the surveillance identifier capability is read from bit 18 instead of bit 35 |
| C43 | `acas`: altitude pulses C1 and A1 shifted by 2 instead of 10; the range is masked with 0xA0 instead of 0xC0 |
| C44 | `bds40`: the two selected altitudes are swapped; the status of the pressure is read from bit 1 |
| C45 | `bds44`: top bit of the wind speed dropped, source never reported, sign of the V0 temperature ignored, V0 turbulence not checked |
| C52 | no check of the latitude in global airborne decoding |
| C53 | the distance to the reference is not circular; a non-finite reference panics |
| C54 | at antipodes the argument of the second square root may be negative, and the distance not a number (with some accurate libraries) |
| C56 | four enumerations are labelled with the number of another code; the sense of a resolution advisory is always printed as upward |
| C90 | `Payload` and `Parity` of a message are windows of the buffer given to `ReadMessage`: they change when the caller reuses it |
| C62 | the text of a bearing above 252 degrees wraps around a byte |
| C67 | the command reads its first argument even when options are given |
| C69, C70, C71 | the sector of a threat is printed wrong above 252 degrees (see C62); the downward sense of an advisory is printed as upward (see C56) |
| C70 | `bds10`: the line "Continuation Flag" prints the overlay command capability |
| C73 | `bds65`: the error about an unknown version number gives the subtype instead of that number; (text only, as in the code) a surface position of an unknown version is refused as an "AirbornePosition" |
| C74 | as C43: a valid altitude of the threat may be refused |
| C75 | `bds07`: bits 7 and 8 are not looked at; `bds30`: the error about the first byte names 0x20. (Text only, as in the code: the error about the source of `bds44` speaks of a subtype between 0 and 1; `bds45` says that bits 52 to 56 must be zero when only 55 and 56 need to be) |
| C69 | the Mode A code of an emergency report (`bds61`) is read but never printed: two reports of the same emergency with different codes have the same text (`emergency_code_refuted`) |
| C69 | titles only, not stated as theorems: `bds65` prints the track angle/heading of surface reports under the title "NIC Baro"; several titles of `bds65` carry the prefixes "SubtypeAirborne", "SubtypeSurface" |
