{"id": "C01", "title": "ReadMessage is total", "statement": "For every byte slice of any length, ReadMessage returns either a message or an error; it never panics (no index out of range, no nil dereference).", "quantifier": "every finite sequence of bytes", "why_tests_cant": "the inputs are radio noise: all 2^112 long messages and all lengths", "anchors": ["pkg/modes/reader/reader.go:ReadMessage", "pkg/modes/messages/*.go:ParseDF*", "pkg/modes/fields/*.go:Read*"]}
{"id": "C02", "title": "Which frames ReadMessage accepts", "statement": "ReadMessage succeeds exactly when the frame is 7 bytes with downlink format 0, 4, 5 or 11, or 14 bytes with downlink format 16 to 21 or 24 to 31, and, for the formats that carry an altitude code (0, 4, 16, 20), that code is a legal one (metric codes are always legal, 25 ft codes are always legal, 100 ft codes must have a legal C1C2C4 triple or be the all-zero 'no altitude' code as the implementation defines it). Everything else is an error.", "quantifier": "every finite sequence of bytes", "why_tests_cant": "exact acceptance is a statement on all inputs", "anchors": ["pkg/modes/reader/reader.go:ReadMessage", "pkg/modes/fields/altitude_code.go:ReadAltitude"]}
{"id": "C03", "title": "Message kind follows the downlink format", "statement": "The dynamic type of the message returned by ReadMessage, and its GetDownLinkFormat, are determined by the first five bits of the frame (first two bits for Comm-D, reported as 24).", "quantifier": "every accepted frame", "why_tests_cant": "must hold for every accepted frame", "anchors": ["pkg/modes/reader/reader.go:ReadMessage", "pkg/modes/messages/*.go:GetDownLinkFormat"]}
{"id": "C04", "title": "Bit layout of short Mode S replies", "statement": "For DF0, DF4, DF5 and DF11 every field of the decoded message is the number written at the bit positions Annex 10 vol. IV 3.1.2 assigns to it (VS, CC, SL, RI, AC / FS, DR, UM(IIS,IDS), AC / ID / CA, AA), and the raw payload and parity are the frame's bytes.", "quantifier": "every accepted 56-bit frame", "why_tests_cant": "2^56 message bodies cannot be enumerated, and a wrong mask or shift shows only on the values that use the bits it drops", "anchors": ["pkg/modes/messages/df0.go", "pkg/modes/messages/df4.go", "pkg/modes/messages/df5.go", "pkg/modes/messages/df11.go", "pkg/modes/fields"]}
{"id": "C05", "title": "Bit layout of long Mode S replies", "statement": "For DF16 to DF21 and DF24 every field of the decoded message is the number (or the byte string) written at the bit positions Annex 10 assigns to it: MV bits 33-88, ME bits 33-88, MB bits 33-88, CF, AA, AF, KE, ND, MD bits 9-88.", "quantifier": "every accepted 112-bit frame", "why_tests_cant": "2^56 message bodies cannot be enumerated, and a wrong mask or shift shows only on the values that use the bits it drops", "anchors": ["pkg/modes/messages/df16.go", "pkg/modes/messages/df17.go", "pkg/modes/messages/df18.go", "pkg/modes/messages/df19.go", "pkg/modes/messages/df20.go", "pkg/modes/messages/df21.go", "pkg/modes/messages/df24.go"]}
{"id": "C06", "title": "Mode A identity", "statement": "The identity decoded from the 13-bit ID field is the four octal digits ABCD given by the pulses C1 A1 C2 A2 C4 A4 X B1 D1 B2 D2 B4 D4; every squawk 0000-7777 is obtained from exactly one setting of the twelve pulses, and the emergency predicates answer true exactly for 7700, 7600, 7500 and 2000.", "quantifier": "every 13-bit identity field, every squawk", "why_tests_cant": "a swap of two pulses survives most sample squawks", "anchors": ["pkg/modes/fields/identity.go"]}
{"id": "C07", "title": "Altitude code of surveillance replies", "statement": "The 13-bit AC field decodes as: M=1 metric; M=0,Q=1: 25*N-1000 ft with N the 11 bits left once M and Q are removed; M=0,Q=0: Gillham code.", "quantifier": "every 13-bit AC field", "why_tests_cant": "8192 codes, three coding schemes", "anchors": ["pkg/modes/fields/altitude_code.go:ReadAltitude"]}
{"id": "C08", "title": "Gillham code is decoded to the altitude it encodes", "statement": "For every multiple of 100 ft that the Gillham code represents, encoding it (reflected binary 500 ft counter on D1D2D4A1A2A4B1B2B4, cyclic 100 ft digit on C1C2C4) and decoding it with GillhamToAltitude gives the altitude back; every other setting of the pulses is an error.", "quantifier": "every setting of the twelve pulses and every encodable altitude", "why_tests_cant": "tests in the repository cover a table of altitudes, not the inverse statement", "anchors": ["pkg/bitutils/gillham.go:GillhamToAltitude"]}
{"id": "C09", "title": "Gillham code has unit distance", "statement": "The codes of two altitudes 100 ft apart differ in exactly one pulse, so one pulse caught in transition costs at most 100 ft.", "quantifier": "every pair of successive altitudes", "why_tests_cant": "a statement on all successive pairs", "anchors": ["pkg/bitutils/gillham.go:GillhamToAltitude"]}
{"id": "C10", "title": "Byte and bit packing", "statement": "Pack2Bytes, Pack3Bytes, Pack4Bytes, Pack8Bits and Pack16Bits return the number whose big-endian digits are their arguments.", "quantifier": "every argument", "why_tests_cant": "2^32 combinations", "anchors": ["pkg/bitutils/bitutils.go"]}
{"id": "C11", "title": "The parity is the Mode S cyclic code", "statement": "For every message body of at least 3 bytes, the parity computed by the CRC check is the remainder of M(x)*x^24 modulo G(x)=x^24+x^23+...+x^12+x^10+x^3+1 (0x1FFF409) over GF(2).", "quantifier": "every byte sequence of length at least 3", "why_tests_cant": "unbounded lengths; 2^88 bodies at the lengths used", "anchors": ["pkg/modes/reader/crc.go:computeParity"]}
{"id": "C12", "title": "The parity is linear", "statement": "The parity of the xor of two equally long bodies is the xor of their parities.", "quantifier": "every pair of bodies of the same length", "why_tests_cant": "pairs of arbitrary bodies", "anchors": ["pkg/modes/reader/crc.go:computeParity"]}
{"id": "C13", "title": "Extended squitters are accepted iff their parity matches", "statement": "CheckCRC on a DF17 or DF18 frame succeeds iff the last 24 bits equal the parity of the first 88, and then returns the announced address (bits 9-32).", "quantifier": "every DF17/DF18 frame", "why_tests_cant": "iff over 2^112 frames", "anchors": ["pkg/modes/reader/crc.go:checkCRCDF17And18"]}
{"id": "C14", "title": "Address/parity overlay is inverted", "statement": "If a reply (not DF11, 17, 18) is transmitted with its parity xored with address A, CheckCRC returns exactly A, for any body; conversely the address returned is the only one that explains the parity.", "quantifier": "every body and every 24-bit address", "why_tests_cant": "all addresses times all bodies", "anchors": ["pkg/modes/reader/crc.go:checkCRCOther"]}
{"id": "C15", "title": "Guaranteed error detection on extended squitters", "statement": "Starting from a frame that passes the DF17/DF18 check, changing any 1 to 5 bits outside the downlink format bits, any odd number of bits, or any burst of at most 24 consecutive bits gives a frame that is rejected by the check.", "quantifier": "every valid frame and every such error pattern", "why_tests_cant": "C(112,5) patterns times 2^88 frames", "anchors": ["pkg/modes/reader/crc.go:checkCRCDF17And18", "pkg/modes/reader/crc.go:computeParity"]}
{"id": "C16", "title": "All-call interrogator identifier", "statement": "For a DF11 reply whose parity is xored with interrogator code I, CheckCRC returns exactly I when no list of interrogators is given.", "quantifier": "every body and every code", "why_tests_cant": "all bodies", "anchors": ["pkg/modes/reader/crc.go:checkCRCDF11"]}
{"id": "C17", "title": "Allow lists", "statement": "With a non-empty list of addresses (interrogators for DF11) CheckCRC fails iff the recovered code is not a key of the list; with an empty or nil list it never fails for that reason. The value associated with the key plays no role.", "quantifier": "every list, every frame", "why_tests_cant": "all maps and frames", "anchors": ["pkg/modes/reader/crc.go:CheckCRC"]}
{"id": "C18", "title": "CheckCRC never panics on the frame that was read", "statement": "If ReadMessage(data) succeeds, CheckCRC(message, data, lists...) returns a code or an error, never panics.", "quantifier": "every byte sequence, every list", "why_tests_cant": "all frames and lists", "anchors": ["pkg/modes/reader/crc.go:CheckCRC", "pkg/modes/reader/reader.go:ReadMessage"]}
{"id": "C19", "title": "ReadADSBMessage is total", "statement": "For every byte slice, ADS-B level and NIC supplements, ReadADSBMessage returns a message or an error; it never panics.", "quantifier": "every byte sequence, level, supplements", "why_tests_cant": "all inputs", "anchors": ["pkg/adsb/reader/reader.go:ReadADSBMessage"]}
{"id": "C20", "title": "ADS-B type code dispatch", "statement": "The kind of the message returned by ReadADSBMessage is determined by the type code in bits 1-5: 0 no-position/type-0 position, 1-4 identification, 5-8 surface position, 9-18 and 20-22 airborne position, 19 velocity, 28 aircraft status, 29 target state, 31 operational status; other type codes, and lengths other than 7, are errors.", "quantifier": "every byte sequence", "why_tests_cant": "all inputs", "anchors": ["pkg/adsb/reader/reader.go:ReadADSBMessage"]}
{"id": "C21", "title": "Airborne position register (BDS 0,5)", "statement": "Every field of a decoded airborne position is the number at its Doc 9871 position: type code 1-5, surveillance status 6-7, antenna flag 8, altitude 9-20, time 21, CPR format 22, latitude 23-39, longitude 40-56; altitude source GNSS iff type code 20-22.", "quantifier": "every accepted 7-byte body", "why_tests_cant": "2^56 message bodies cannot be enumerated, and a wrong mask or shift shows only on the values that use the bits it drops", "anchors": ["pkg/bds/bds05"]}
{"id": "C22", "title": "Airborne position altitude", "statement": "The 12-bit altitude of BDS 0,5 decodes as 25*N-1000 ft (Q=1) or as Gillham (Q=0); an airborne position is rejected exactly when the Gillham code is illegal, which includes the all-zero code meaning 'altitude not available'.", "quantifier": "every 12-bit code", "why_tests_cant": "4096 codes and the interplay with message acceptance", "anchors": ["pkg/bds/bds05/fields/altitude.go:ReadAltitude"]}
{"id": "C23", "title": "Navigation integrity of airborne positions", "statement": "The NIC / NUCp and containment radius reported for an airborne position follow the tables of DO-260/A/B as a function of version, type code and NIC supplement.", "quantifier": "every accepted body, version and supplement", "why_tests_cant": "all combinations", "anchors": ["pkg/adsb/airborne_position"]}
{"id": "C24", "title": "Surface position register (BDS 0,6)", "statement": "Every field of a decoded surface position is the number at its Doc 9871 position: movement 6-12, track status 13, track 14-20, time 21, CPR format 22, latitude 23-39, longitude 40-56.", "quantifier": "every accepted 7-byte body", "why_tests_cant": "2^56 message bodies cannot be enumerated, and a wrong mask or shift shows only on the values that use the bits it drops", "anchors": ["pkg/bds/bds06"]}
{"id": "C25", "title": "Surface ground speed", "statement": "The movement code decodes to the ground speed of the Doc 9871 table (0 to 175 kt, non-decreasing in the code); the ground track is 360/128 degrees per unit.", "quantifier": "every movement and track code", "why_tests_cant": "piecewise table in float32 arithmetic", "anchors": ["pkg/bds/bds06/fields/movement.go", "pkg/bds/bds06/fields/ground_track.go"]}
{"id": "C26", "title": "Navigation integrity of surface positions", "statement": "The NIC / NUCp and containment radius reported for a surface position follow the tables of DO-260/A/B as a function of version, type code and NIC supplements.", "quantifier": "every accepted body, version and supplements", "why_tests_cant": "all combinations", "anchors": ["pkg/adsb/surface_position"]}
{"id": "C27", "title": "Aircraft identification (BDS 0,8)", "statement": "Type code 1-4, category bits 6-8 (interpreted in the set named by the type code) and the eight 6-bit characters 9-56 in the ICAO character set; the message is coherent iff all eight characters are legal and the category is a defined one (set D, and the codes of set C above 3, are reserved).", "quantifier": "every 7-byte body", "why_tests_cant": "2^56 message bodies cannot be enumerated, and a wrong mask or shift shows only on the values that use the bits it drops", "anchors": ["pkg/bds/bds08", "pkg/bds/encoding/identification.go"]}
{"id": "C28", "title": "Airborne velocity (BDS 0,9)", "statement": "Every field of the four velocity subtypes is the number at its Doc 9871 position, with speeds value-1 (times 4 supersonic), vertical rates 64*(value-1) signed, geometric height difference 25*(value-1) signed, and status 'no information' for 0 and 'maximum' for the all-ones value.", "quantifier": "every 7-byte body of type 19", "why_tests_cant": "2^56 message bodies cannot be enumerated, and a wrong mask or shift shows only on the values that use the bits it drops", "anchors": ["pkg/bds/bds09"]}
{"id": "C29", "title": "Ground speed from its components", "statement": "GetSpeed of a ground-speed message is the integer part of sqrt(EW^2+NS^2) of the decoded components; when a component is absent or over its maximum, GetSpeed returns an error that names it.", "quantifier": "every pair of 10-bit components", "why_tests_cant": "10^6 pairs and rounding of a square root", "anchors": ["pkg/bds/bds09/airborne_velocity_ground_speed_normal.go:GetSpeed"]}
{"id": "C30", "title": "Aircraft status (BDS 6,1)", "statement": "Subtype bits 6-8; emergency state bits 9-11 and Mode A code bits 12-24 (subtype 1); ACAS resolution advisory bits 9-56 (subtype 2).", "quantifier": "every 7-byte body of type 28", "why_tests_cant": "2^56 message bodies cannot be enumerated, and a wrong mask or shift shows only on the values that use the bits it drops", "anchors": ["pkg/bds/bds61"]}
{"id": "C31", "title": "Target state and status (BDS 6,2)", "statement": "Every field of both subtypes is the number at its Doc 9871 position.", "quantifier": "every 7-byte body of type 29", "why_tests_cant": "2^56 message bodies cannot be enumerated, and a wrong mask or shift shows only on the values that use the bits it drops", "anchors": ["pkg/bds/bds62"]}
{"id": "C32", "title": "Operational status (BDS 6,5)", "statement": "Every field of the versions 0, 1, 2 airborne and surface operational status is the number at its Doc 9871 position, and the variant is chosen by subtype and version number.", "quantifier": "every 7-byte body of type 31", "why_tests_cant": "2^56 message bodies cannot be enumerated, and a wrong mask or shift shows only on the values that use the bits it drops", "anchors": ["pkg/bds/bds65"]}
{"id": "C33", "title": "Version announced by the operational status", "statement": "The ADS-B version reported by a decoded operational status message is the version number carried by the message (bits 41-43).", "quantifier": "every accepted operational status", "why_tests_cant": "all bodies", "anchors": ["pkg/bds/bds65", "pkg/adsb/aircraft_operational_status"]}
{"id": "C34", "title": "Type code 0", "statement": "Type code 0 bodies with all bits 21-56 zero are read as 'no position information', all others as a type-0 airborne position whose fields are those of an airborne position at their C21 positions, with the barometric altitude of bits 9-20.", "quantifier": "every 7-byte body of type 0", "why_tests_cant": "2^56 message bodies cannot be enumerated, and a wrong mask or shift shows only on the values that use the bits it drops", "anchors": ["pkg/adsb/no_position_information", "pkg/adsb/airborne_position"]}
{"id": "C35", "title": "ReadCommBMessage is total", "statement": "For every byte slice ReadCommBMessage returns a list or an error, and an error exactly when the length is not 7; it never panics.", "quantifier": "every byte sequence", "why_tests_cant": "all inputs", "anchors": ["pkg/commb/reader.go:ReadCommBMessage"]}
{"id": "C36", "title": "Comm-B candidates are sound", "statement": "Every candidate in the list returned by ReadCommBMessage is the successful, coherent decoding of the data by the reader of its own register.", "quantifier": "every 7-byte body", "why_tests_cant": "all bodies", "anchors": ["pkg/commb/reader.go:ReadCommBMessage"]}
{"id": "C37", "title": "Comm-B candidates are complete and ordered", "statement": "If none of BDS 0,0, 0,7, 2,0 recognises the body, the list contains every coherent decoding among BDS 1,0 1,7 3,0 4,0 4,4 4,5 5,0 6,0, at most once, in increasing register order.", "quantifier": "every 7-byte body", "why_tests_cant": "all bodies", "anchors": ["pkg/commb/reader.go:ReadCommBMessage"]}
{"id": "C38", "title": "Comm-B exclusive registers", "statement": "If the body is all zero, or is a coherent BDS 0,7 or BDS 2,0, the list is exactly that one candidate, in this order of priority.", "quantifier": "every 7-byte body", "why_tests_cant": "all bodies", "anchors": ["pkg/commb/reader.go:ReadCommBMessage"]}
{"id": "C39", "title": "BDS 0,0 / 0,7", "statement": "BDS 0,0 is recognised iff all 56 bits are zero; BDS 0,7 is recognised iff the bits after the three defined ones are zero.", "quantifier": "every 7-byte body", "why_tests_cant": "2^56 message bodies cannot be enumerated, and a wrong mask or shift shows only on the values that use the bits it drops", "anchors": ["pkg/bds/bds00", "pkg/bds/bds07"]}
{"id": "C40", "title": "Data link capability report (BDS 1,0)", "statement": "Recognised iff bits 1-8 are 0x10 and the reserved bits 10-14 are zero; every field is the number at its Doc 9871 position.", "quantifier": "every 7-byte body", "why_tests_cant": "2^56 message bodies cannot be enumerated, and a wrong mask or shift shows only on the values that use the bits it drops", "anchors": ["pkg/bds/bds10"]}
{"id": "C41", "title": "GICB capability report (BDS 1,7)", "statement": "Each of the capability flags is the corresponding bit; the message is recognised iff the bits after the defined ones are zero.", "quantifier": "every 7-byte body", "why_tests_cant": "2^56 message bodies cannot be enumerated, and a wrong mask or shift shows only on the values that use the bits it drops", "anchors": ["pkg/bds/bds17"]}
{"id": "C42", "title": "Aircraft identification (BDS 2,0)", "statement": "Recognised iff bits 1-8 are 0x20; the eight characters are the 6-bit fields 9-56; coherent iff all are legal characters.", "quantifier": "every 7-byte body", "why_tests_cant": "2^56 message bodies cannot be enumerated, and a wrong mask or shift shows only on the values that use the bits it drops", "anchors": ["pkg/bds/bds20"]}
{"id": "C43", "title": "ACAS resolution advisory (BDS 3,0, DF16 MV, BDS 6,1 subtype 2)", "statement": "The 48-bit advisory decodes field by field: ARA 1-14, RAC 15-18, RAT 19, MTE 20, TTI 21-22, and the threat identity data as address (TTI 1) or altitude/range/bearing (TTI 2).", "quantifier": "every 6-byte advisory", "why_tests_cant": "2^56 message bodies cannot be enumerated, and a wrong mask or shift shows only on the values that use the bits it drops", "anchors": ["pkg/acas/ra", "pkg/bds/bds30"]}
{"id": "C44", "title": "Selected vertical intention (BDS 4,0)", "statement": "Status bits 1, 14, 27, 48, 54 and values 2-13, 15-26, 28-39, modes 49-51, source 55-56, with LSB 16 ft and 0.1 hPa above 800 hPa.", "quantifier": "every 7-byte body", "why_tests_cant": "2^56 message bodies cannot be enumerated, and a wrong mask or shift shows only on the values that use the bits it drops", "anchors": ["pkg/bds/bds40"]}
{"id": "C45", "title": "Meteorological routine report (BDS 4,4)", "statement": "Every field of the decoded report is the (signed) number at its Doc 9871 position. A report is coherent iff it conveys something, the fields announced absent are zero, and the wind speed and temperature are plausible (250 kt; -80 to 60 degrees C); the same for the older format of the register.", "quantifier": "every 7-byte body", "why_tests_cant": "2^56 message bodies cannot be enumerated, and a wrong mask or shift shows only on the values that use the bits it drops", "anchors": ["pkg/bds/bds44"]}
{"id": "C46", "title": "Meteorological hazard report (BDS 4,5)", "statement": "Every field of the decoded report is the (signed) number at its Doc 9871 position. The recognised bodies are those whose reserved bits 55-56 are zero; a report is coherent iff it conveys something, the fields announced absent are zero and the temperature is plausible; the same for the older format of the register.", "quantifier": "every 7-byte body", "why_tests_cant": "2^56 message bodies cannot be enumerated, and a wrong mask or shift shows only on the values that use the bits it drops", "anchors": ["pkg/bds/bds45"]}
{"id": "C47", "title": "Track and turn report (BDS 5,0)", "statement": "Status bits 1, 12, 24, 35, 46; two's complement roll angle 2-11 (45/256 deg), track 13-23 (90/512 deg), ground speed 25-34 (2 kt), track rate 36-45 (8/256 deg/s), TAS 47-56 (2 kt).", "quantifier": "every 7-byte body", "why_tests_cant": "2^56 message bodies cannot be enumerated, and a wrong mask or shift shows only on the values that use the bits it drops", "anchors": ["pkg/bds/bds50"]}
{"id": "C48", "title": "Heading and speed report (BDS 6,0)", "statement": "Status bits 1, 13, 24, 35, 46; two's complement heading 2-12 (90/512 deg), IAS 14-23 (1 kt), Mach 25-34 (2.048/512), vertical rates 36-45 and 47-56 (32 ft/min).", "quantifier": "every 7-byte body", "why_tests_cant": "2^56 message bodies cannot be enumerated, and a wrong mask or shift shows only on the values that use the bits it drops", "anchors": ["pkg/bds/bds60"]}
{"id": "C49", "title": "Local CPR decoding returns the nearest solution", "statement": "For airborne and surface positions, the position decoded from a reference is one of the positions the code stands for, and is at most half a zone away from the reference in latitude and in longitude; hence any position within half a zone of the reference is recovered up to quantisation. This holds of the binary64 computation, up to 2e-9 degrees, for every implementation of the trigonometric functions that is accurate to 1e-14, away from the latitudes where the number of longitude zones changes.", "quantifier": "every code, reference and parity", "why_tests_cant": "a continuum of references", "anchors": ["pkg/geo/cpr_airborne_local_position.go", "pkg/geo/cpr_surface_local_position.go"]}
{"id": "C50", "title": "Global CPR decoding recovers the position", "statement": "From an even and an odd encoding of one position, the global decoder returns that position (latitude and longitude within one quantum), whenever both encodings fall in the same longitude zone. This holds of the binary64 computation, for every implementation of the trigonometric functions that is accurate to 1e-14, away from the latitudes where the number of longitude zones changes.", "quantifier": "every position", "why_tests_cant": "a continuum of positions", "anchors": ["pkg/geo/cpr_airborne_global_position.go"]}
{"id": "C51", "title": "Number of longitude zones", "statement": "The number of longitude zones is an integer from 1 to 59, symmetric in the latitude, and non-increasing away from the equator: it is the number of the ICAO formula, in exact arithmetic everywhere, and in binary64 with an accurate library away from the transition latitudes.", "quantifier": "every latitude", "why_tests_cant": "a continuum of latitudes", "anchors": ["pkg/geo/cpr_common.go:getNumberOfLongitude"]}
{"id": "C52", "title": "Range of global airborne positions", "statement": "The longitude returned is in (-180, 180], and the latitude is in [-90, 90] whenever the pair of frames is consistent.", "quantifier": "every quadruple of codes", "why_tests_cant": "2^68 quadruples", "anchors": ["pkg/geo/cpr_airborne_global_position.go"]}
{"id": "C53", "title": "Surface global decoding picks the quadrant of the reference", "statement": "The longitude returned is, among the four candidates 90 degrees apart, the one closest to the reference longitude.", "quantifier": "every code pair and reference", "why_tests_cant": "a continuum of references", "anchors": ["pkg/geo/cpr_surface_global_position.go"]}
{"id": "C54", "title": "Ground distance is a metric-like quantity", "statement": "The distance computed is the great-circle distance: 0 exactly between identical points, symmetric, non-negative, at most half the circumference, and it satisfies the triangle inequality (in exact arithmetic); in binary64, with an accurate library, it is within a centimetre of it, for positions at most 20 000 km apart and not within a thousandth of a degree of a pole.", "quantifier": "every pair of points", "why_tests_cant": "a continuum", "anchors": ["pkg/geo/ground_distance.go"]}
{"id": "C55", "title": "Rendering is total", "statement": "ToString of every message returned by ReadMessage, ReadADSBMessage, ReadCommBMessage and ReadResolutionAdvisory never panics.", "quantifier": "every returned message", "why_tests_cant": "every decodable input", "anchors": ["pkg/**/ToString"]}
{"id": "C56", "title": "Enumeration labels", "statement": "The label printed for a code of an enumerated field starts with that code (numbered enumerations) or is proper to that code (worded ones), so the code can be read back from the text; the sense of an advisory can be read from its text.", "quantifier": "every code of every enumerated field", "why_tests_cant": "all codes of ~100 enumerations", "anchors": ["pkg/**/fields/*.go:ToString"]}
{"id": "C57", "title": "PrefixMultiLine", "statement": "PrefixMultiLine prefixes every line, keeps their number and order, and changes nothing else.", "quantifier": "every text and prefix", "why_tests_cant": "all strings", "anchors": ["pkg/common/printable.go:PrefixMultiLine"]}
{"id": "C58", "title": "Address rendering is faithful", "statement": "The text printed for an ICAO address determines the 24-bit address.", "quantifier": "every 24-bit address", "why_tests_cant": "2^24 addresses", "anchors": ["pkg/modes/common/address.go:ToString"]}
{"id": "C59", "title": "Register names", "statement": "The register attached to a decoded message is the one it was decoded from, and the 18 registers have distinct ids.", "quantifier": "every message", "why_tests_cant": "all messages", "anchors": ["pkg/bds/register/register_reference.go"]}
{"id": "C60", "title": "The command never panics on an input line", "statement": "For every input line and every supported level, processing the line ends normally (it prints something), whatever the characters, length and content.", "quantifier": "every string", "why_tests_cant": "all strings", "anchors": ["cmd/main.go:processSingleLine"]}
{"id": "C61", "title": "Sub-message extraction from Mode S", "statement": "The body given to the ADS-B reader, Comm-B reader and ACAS reader by the command are bits 33-88 (41-88 for ACAS) of the frame, and only for the formats and control fields that carry them.", "quantifier": "every accepted frame", "why_tests_cant": "all frames", "anchors": ["cmd/main.go"]}
{"id": "C62", "title": "Threat range and bearing", "statement": "The range of a threat is 0 for the codes 0 and 1, (n-1)/10 NM for n from 2 to 126, and 12.6 NM for 127; its bearing is the middle of the sector 6(n-1) to 6n degrees for n from 1 to 60, 0 when there is no estimate, and not a bearing (above 360) for the unassigned codes; the text of a bearing names the bounds of its sector.", "quantifier": "every code", "why_tests_cant": "a wrong scale or boundary shows on some codes only", "anchors": ["pkg/acas/ra/fields/threat_identity_range.go:GetRange", "pkg/acas/ra/fields/threat_identity_bearing.go:GetBearing,ToString"]}
{"id": "C63", "title": "Bounds of the surface protection limit and containment radius", "statement": "For a surface position of version 0, the bounds returned for the horizontal protection limit and for the containment radius are those the type code stands for (-1 where there is no bound), in metres.", "quantifier": "every surface position body", "why_tests_cant": "each of the four accessors has its own table", "anchors": ["pkg/adsb/surface_position/fields/horizontal_protection_limit.go", "pkg/adsb/surface_position/fields/containment_radius.go"]}
{"id": "C64", "title": "Subtypes, forms and sets", "statement": "The subtype returned by an airborne velocity, aircraft status or target state message is the one in the body; the type of an active advisory is the one the ARA and MTE bits select; the category set of an identification is the one of its type code; the turbulence status of a hazard report is the one in the body; two Mode S messages have the same name iff they have the same downlink format.", "quantifier": "every decoded message", "why_tests_cant": "all bodies", "anchors": ["pkg/bds/bds09/*.go:GetSubtype", "pkg/bds/bds61/*.go:GetSubtype", "pkg/bds/bds62/*.go:GetSubtype", "pkg/acas/ra/fields/active_resolution_advisory*.go:GetType", "pkg/bds/bds08/fields/*.go:GetCategorySetName", "pkg/bds/bds45/*.go:GetTurbulenceStatus", "pkg/modes/messages/*.go:GetName"]}
{"id": "C65", "title": "Coherence of ADS-B messages", "statement": "CheckCoherency of a decoded ADS-B message succeeds iff: an identification has only legal characters and, in set C, no reserved category; an aircraft status without information announces no emergency; an emergency status announces one of the six assigned states. Other messages are always coherent, and checking never panics.", "quantifier": "every decoded body", "why_tests_cant": "2^56 message bodies cannot be enumerated, and a wrong mask or shift shows only on the values that use the bits it drops", "anchors": ["pkg/adsb/messages/*.go:CheckCoherency", "pkg/bds/bds08", "pkg/bds/bds61"]}
{"id": "C66", "title": "Files are reported line by line", "statement": "With the option -file, the command reports every line of the file, in order, each as if it were given alone at the chosen level; lines may end with a newline or a carriage return and a newline, the last one may not be ended. If the file cannot be opened or read, or has a line of 65536 bytes or more, it ends with status 1 and reports nothing.", "quantifier": "every file content", "why_tests_cant": "all contents", "anchors": ["cmd/main.go:main,readFile"]}
{"id": "C67", "title": "Command line", "statement": "The options can be written with one or two dashes, with = or as the next word; the last one wins; a level other than 0, 1 or 2 is refused before anything is read; a command line that cannot be read is refused; without a file and without words the command says that no data is provided; otherwise it reports the first word after the options.", "quantifier": "every command line", "why_tests_cant": "all word lists", "anchors": ["cmd/main.go:main"]}
{"id": "C68", "title": "The text of a Mode S message shows its fields", "statement": "The text printed for a message returned by ReadMessage has exactly one line for each field of the message, in order, each made of the title of the field and its value: the code first for an enumerated field, the decimal number for a number, the six hexadecimal digits for an address, the octets for a body; nothing else is printed.", "quantifier": "every accepted frame", "why_tests_cant": "a swapped or forgotten field shows only on messages where it differs", "anchors": ["pkg/modes/messages/*.go:ToString", "pkg/modes/fields/*.go:ToString"]}
{"id": "C69", "title": "The text of an ADS-B message shows its fields", "statement": "The text printed for a message returned by ReadADSBMessage has exactly one line for each field of the message, in order, each made of the title of the field and its value, or, for a computed speed or track, the value or the reason why it cannot be computed.", "quantifier": "every accepted body, version and flags", "why_tests_cant": "a swapped or forgotten field shows only on messages where it differs", "anchors": ["pkg/bds/bds05/*.go:ToString", "pkg/bds/bds06", "pkg/bds/bds08", "pkg/bds/bds09", "pkg/bds/bds61", "pkg/bds/bds62", "pkg/bds/bds65", "pkg/adsb/messages"]}
{"id": "C70", "title": "The text of a Comm-B message shows its fields", "statement": "The text printed for each message returned by ReadCommBMessage has exactly one line for each field of the message, in order, each made of the title of the field and its value.", "quantifier": "every accepted body", "why_tests_cant": "a swapped or forgotten field shows only on messages where it differs", "anchors": ["pkg/bds/bds00/*.go:ToString", "pkg/bds/bds07", "pkg/bds/bds10", "pkg/bds/bds17", "pkg/bds/bds20", "pkg/bds/bds30", "pkg/bds/bds40", "pkg/bds/bds44", "pkg/bds/bds45", "pkg/bds/bds50", "pkg/bds/bds60"]}
{"id": "C71", "title": "The text of a resolution advisory shows its fields", "statement": "The text printed for an advisory returned by ReadResolutionAdvisory has exactly one line for each field of the advisory, in order: the form of the active advisory and its bits, the four complements, and the threat by its address or by its altitude, range and bearing sector.", "quantifier": "every accepted advisory", "why_tests_cant": "a swapped or forgotten field shows only on messages where it differs", "anchors": ["pkg/acas/ra/resolution_advisory.go:ToString", "pkg/acas/ra/fields/*.go:ToString"]}
{"id": "C72", "title": "Why a frame is refused", "statement": "ReadMessage returns an error iff one of its checks fails, and the text of the error is the one of the first check that fails: the length of the frame (7 or 14 bytes), a downlink format the library knows, the length this format requires, a readable altitude; the text names the format.", "quantifier": "every byte string", "why_tests_cant": "the order of the checks shows only on inputs that fail several of them", "anchors": ["pkg/modes/reader/reader.go:ReadMessage", "pkg/modes/messages/*.go:ParseDF*"]}
{"id": "C73", "title": "Why an ADS-B body is refused", "statement": "ReadADSBMessage returns an error iff one of its checks fails, and the text of the error is the one of the first check that fails: the length of the body, a type code the library knows, then, by type, the version, the altitude, the subtype, the reserved bits, with the faulty number in the text.", "quantifier": "every byte string, version and flags", "why_tests_cant": "the order of the checks shows only on inputs that fail several of them", "anchors": ["pkg/adsb/reader/reader.go:ReadADSBMessage", "pkg/bds/bds05", "pkg/bds/bds09", "pkg/bds/bds61", "pkg/bds/bds62", "pkg/bds/bds65"]}
{"id": "C74", "title": "Why a resolution advisory is refused", "statement": "ReadResolutionAdvisory returns an error iff the data are not 6 bytes long or the altitude of the threat is no valid pulse code, and the text of the error says which.", "quantifier": "every byte string", "why_tests_cant": "all strings", "anchors": ["pkg/acas/ra/resolution_advisory.go:ReadResolutionAdvisory"]}
{"id": "C75", "title": "Why a Comm-B register is not recognised", "statement": "Each register reader returns an error iff one of its checks fails, and the text of the error is the one of the first check that fails: 7 bytes, the register number where the register has one (0x10, 0x20, 0x30), the reserved bits, the source of a routine air report, the altitude of the threat of an advisory.", "quantifier": "every byte string and every register", "why_tests_cant": "the order of the checks shows only on inputs that fail several of them", "anchors": ["pkg/bds/bds*/*.go:Read*"]}
{"id": "C76", "title": "Why a Comm-B message is not coherent", "statement": "CheckCoherency of a Comm-B message, decoded or built by the caller, returns an error iff one of its checks fails, and the text of the error is the one of the first check that fails: something is reported, nothing is given whose status says it is absent, no reserved value, and every value in its plausible range; a value that is not a number is in no range and out of none. It never panics.", "quantifier": "every message of every register with every value of its fields", "why_tests_cant": "all values, including infinities and values that are not numbers", "anchors": ["pkg/bds/bds*/*.go:CheckCoherency"]}
{"id": "C77", "title": "Track from the components of the ground speed", "statement": "GetTrack of a ground-speed message is an angle of [0, 360] degrees, within 1/50000 degree of the direction, clockwise from north, of the speed of its two components with their signs, unless both are zero; when a component is absent or over its maximum, GetTrack returns an error that names it.", "quantifier": "every message of subtypes 1 and 2, and every arc tangent with an error of at most 1e-14", "why_tests_cant": "10^6 pairs of components in four quadrants, and rounding", "anchors": ["pkg/bds/bds09/airborne_velocity_ground_speed_normal.go:GetTrack", "pkg/bds/bds09/airborne_velocity_ground_speed_supersonic.go:GetTrack"]}
{"id": "C78", "title": "An airborne position is located", "statement": "When an aircraft sends its position in two extended squitters, one even and one odd, in the standard encoding and with their parity, then ReadMessage and ReadADSBMessage accept the frames, CheckCRC gives the address of the aircraft, the messages carry its altitude, status and antenna flag, and GetCPRAirborneGlobalPosition of their coordinates gives its latitude and longitude to half a step of the encoding (plus 1e-11 degree); with one squitter and a known position less than half a zone away, so does GetCPRAirborneLocalPosition (plus 1e-9).", "quantifier": "every position clear of a change of the number of zones, altitude, address, capability, type code, version and flags, and every trigonometric library with an error of at most 1e-14", "why_tests_cant": "a chain of readers over a continuum of positions", "anchors": ["pkg/modes/reader", "pkg/modes/crc", "pkg/adsb/reader", "pkg/bds/bds05", "pkg/geo"]}
{"id": "C79", "title": "A surface position is located", "statement": "When an aircraft on the ground sends its position in two extended squitters, one even and one odd, in the standard encoding and with their parity, then the library accepts the frames, gives the address of the aircraft, its speed and its track, and GetCPRSurfaceGlobalPosition of their coordinates, with a reference in the same hemisphere and at less than 45 degrees of longitude, gives its latitude and longitude to half a step of the encoding (plus 1e-9 degree); with one squitter and a known position less than half a zone away, so does GetCPRSurfaceLocalPosition.", "quantifier": "every position clear of a change of the number of zones, movement, track, address, capability, version and flags, and every trigonometric library with an error of at most 1e-14", "why_tests_cant": "a chain of readers over a continuum of positions", "anchors": ["pkg/modes/reader", "pkg/modes/crc", "pkg/adsb/reader", "pkg/bds/bds06", "pkg/geo"]}
{"id": "C80", "title": "A callsign is told as it was sent", "statement": "When an aircraft sends its callsign and category in an extended squitter, each of the eight characters by its code and with the parity of the frame, the library accepts the frame and gives the address of the aircraft, the eight characters in order, and the category in the set of its type code.", "quantifier": "every callsign of letters, digits and spaces, category, address, capability, version and flags", "why_tests_cant": "37^8 callsigns", "anchors": ["pkg/modes/reader", "pkg/modes/crc", "pkg/adsb/reader", "pkg/bds/bds08"]}
{"id": "C81", "title": "A ground velocity is told as it was sent", "statement": "When an aircraft sends the components of its ground speed, its vertical rate and the difference of its altitudes in an extended squitter, with the parity of the frame, the library accepts the frame and gives the address of the aircraft, its speed (the integer part of the norm of the components), its track (the direction of the components with their signs, to 1/50000 degree), its vertical rate and the difference, with their signs.", "quantifier": "every velocity up to 1021 kt (4084 kt supersonic) in each direction, vertical rate and difference, address, capability, version and flags, and every arc tangent with an error of at most 1e-14", "why_tests_cant": "a chain of readers over 10^11 velocities", "anchors": ["pkg/modes/reader", "pkg/modes/crc", "pkg/adsb/reader", "pkg/bds/bds09"]}
{"id": "C82", "title": "An altitude is told as it was answered", "statement": "When an aircraft answers with its altitude, in steps of 25 ft, by the pulses of Mode C, or without it, in a surveillance reply (DF4), a Comm-B reply (DF20) or an air-air reply (DF0, DF16), with its address added to the parity, ReadMessage gives the altitude, its coding, the status fields and the attached register as they were sent, and CheckCRC gives the address of the aircraft, and no other, to the users who accept it.", "quantifier": "every altitude, status, request, register, address and list of accepted addresses", "why_tests_cant": "a chain of readers over 2^24 addresses and all altitudes", "anchors": ["pkg/modes/reader", "pkg/modes/crc", "pkg/modes/messages/df0.go,df4.go,df16.go,df20.go"]}
{"id": "C83", "title": "A squawk is told as it was answered", "statement": "When an aircraft answers with its squawk of four octal digits, in a surveillance reply (DF5) or a Comm-B reply (DF21), with its address added to the parity, ReadMessage gives the four digits in order, the status fields and the attached register as they were sent, and CheckCRC gives the address of the aircraft, and no other, to the users who accept it.", "quantifier": "every squawk, status, request, register, address and list of accepted addresses", "why_tests_cant": "a chain of readers over 4096 squawks and 2^24 addresses", "anchors": ["pkg/modes/reader", "pkg/modes/crc", "pkg/modes/messages/df5.go,df21.go"]}
{"id": "C84", "title": "An all-call reply tells its address and its interrogator", "statement": "When an aircraft announces its address in an all-call reply, with the code of the interrogator added to the parity, ReadMessage gives the address and the capability, and CheckCRC gives the code of the interrogator, and no other, to the users who accept it.", "quantifier": "every address, capability, interrogator code and list of accepted codes", "why_tests_cant": "2^24 addresses", "anchors": ["pkg/modes/reader", "pkg/modes/crc", "pkg/modes/messages/df11.go"]}
{"id": "C85", "title": "A register is told as it was sent", "statement": "When an aircraft sends a track and turn report (BDS 5,0) or a heading and speed report (BDS 6,0) with all its fields and plausible values, ReadCommBMessage lists exactly one report of this register, and its fields are the values sent, with their signs; when it sends its callsign (BDS 2,0), ReadCommBMessage lists this callsign only.", "quantifier": "every plausible report and every callsign", "why_tests_cant": "10^14 reports", "anchors": ["pkg/commb/reader", "pkg/bds/bds20", "pkg/bds/bds50", "pkg/bds/bds60"]}
{"id": "C86", "title": "An emergency is told as it was sent", "statement": "When an aircraft sends its emergency state and its Mode A code in an extended squitter, with the parity of the frame, the library accepts the frame and gives the address of the aircraft, the state and the code.", "quantifier": "every state, code, address, capability, version and flags", "why_tests_cant": "2^40 squitters", "anchors": ["pkg/modes/reader", "pkg/modes/crc", "pkg/adsb/reader", "pkg/bds/bds61"]}
{"id": "C87", "title": "The level of the reader is the integer given", "statement": "The value of the option -adsb_reader_level, however the option is written, is read as an integer literal of Go (decimal, 0 or 0o octal, 0b binary, 0x hexadecimal, with a sign and underscores between digits) that fits in 64 bits; any other text ends the program with code 2 and nothing printed; the levels 0, 1 and 2 decode the lines of the file with this version of ADS-B, 0 when the option is absent, and any other integer crashes the program.", "quantifier": "every text, way of giving the option, file and following words", "why_tests_cant": "every text", "anchors": ["cmd/main.go:main"]}
{"id": "C88", "title": "The library can be called by several goroutines at once", "statement": "When goroutines call ReadMessage, CheckCRC, ReadADSBMessage and ReadCommBMessage at the same time, on slices of the same or of different buffers that nobody writes meanwhile, then whatever the scheduler does: no call panics; each call returns what it would return alone; the buffers and the tables of the packages are not changed; there is no data race; and all the calls return, without waiting for one another.", "quantifier": "any number of calls with any arguments, every buffer and every overlap of the slices, and every interleaving of the single reads and writes of bytes", "why_tests_cant": "schedules: a test sees a few of them, and a race may not show", "anchors": ["pkg/modes/reader:ReadMessage,CheckCRC", "pkg/adsb/reader:ReadADSBMessage", "pkg/commb:ReadCommBMessage"]}
{"id": "C89", "title": "The content of a message is its own", "statement": "The content of a message returned by ReadMessage (MessageACAS, MessageExtendedSquitter, MessageCommB, MessageCommD) shares no memory with the buffer given to ReadMessage, with the tables of the packages, nor with the content of a message returned by another call, and no other call ever reads or writes it.", "quantifier": "any number of calls, on shared or different buffers, and every interleaving", "why_tests_cant": "aliasing shows only when somebody writes", "anchors": ["pkg/modes/reader:ReadMessage", "pkg/modes/fields:ReadMessageACAS,ReadMessageCommB,ReadMessageCommD,ReadMessageExtendedSquitter"]}
{"id": "C90", "title": "A message outlives the buffer it was read from", "statement": "A message returned by ReadMessage does not change when the caller writes the buffer it was read from, for instance to receive the next frame.", "quantifier": "every frame, and everything the caller may write afterwards", "why_tests_cant": "aliasing shows only when somebody writes", "anchors": ["pkg/modes/reader:ReadMessage", "pkg/modes/common:MessageData"]}
{"id": "C91", "title": "The command prints what the aircraft sent", "statement": "When the command is given, as its first word or on a line of the file, the hexadecimal writing of a frame that an aircraft sent - an extended squitter with a callsign, an airborne or surface position, a ground velocity or an emergency (also from a device that is not a transponder), a surveillance, all-call or air-air reply, or a Comm-B reply with a callsign - it prints the line, the address of the aircraft (the interrogator for an all-call reply), and one line for each field of the frame, in order, with the value that was sent: the callsign, the altitude, the encoded position, the speeds and the speed and track they make, the squawk; and it ends with code 0.", "quantifier": "every value of every field of these frames, every address, every version of the reader, every way of giving the level, any number of lines, and every printing of floating-point numbers on one line", "why_tests_cant": "a chain from the radio to the screen over all these frames", "anchors": ["cmd/main.go:main,processSingleLine", "pkg/modes", "pkg/adsb", "pkg/commb", "pkg/bds"]}
{"id": "C92", "title": "A moving aircraft is located", "statement": "When an aircraft moves between its even and its odd position squitter, by at most 0.0507 degree of latitude and 0.4994*360/(n(n-1)) degrees of longitude where there are n longitude zones (a quarter of this on the ground), also across the meridian 180, the library reads both squitters and the global decoding gives the position it had in the last one, to half a step of the encoding; if the number of longitude zones is not the same in the two positions, the global decoding returns an error, never a wrong position.", "quantifier": "every pair of positions clear of a change of the number of zones and close enough, every order of the two squitters, address, version and flags, and every trigonometric library with an error of at most 1e-14", "why_tests_cant": "a continuum of pairs of positions", "anchors": ["pkg/modes/reader", "pkg/modes/crc", "pkg/adsb/reader", "pkg/bds/bds05", "pkg/bds/bds06", "pkg/geo"]}
{"id": "C93", "title": "A damaged transmission is not attributed to its sender", "statement": "When a frame is heard with at most five wrong bits, or an odd number of them, or a burst of 24 bits: an extended squitter that still has the format of one is refused by CheckCRC for every list of accepted addresses, and the command prints the reason and no message; if the damage changes its format, the address told depends on the damage only; a reply is never attributed to the aircraft that sent it, and is refused for a user who accepts this aircraft only; an all-call reply with one to three wrong bits before its last seven never gives the code of an interrogator (below 128).", "quantifier": "every squitter and reply, every damage of these kinds, every list of accepted addresses and codes", "why_tests_cant": "all frames and all patterns of errors", "anchors": ["pkg/modes/reader:ReadMessage,CheckCRC", "cmd/main.go:processSingleLine"]}
{"id": "C94", "title": "An airspeed is told as it was sent", "statement": "When an aircraft that does not know its ground speed sends its heading, its airspeed, its vertical rate and the difference of its altitudes in an extended squitter, with the parity of the frame, the library accepts the frame and gives the address of the aircraft, whether the heading is available and its value, the airspeed in knots, the vertical rate and the difference with their signs, and whether the airspeed is indicated or true.", "quantifier": "every airspeed up to 1021 kt (4084 kt supersonic), heading, vertical rate and difference, address, capability, version and flags", "why_tests_cant": "a chain of readers over 10^9 velocities", "anchors": ["pkg/modes/reader", "pkg/modes/crc", "pkg/adsb/reader", "pkg/bds/bds09"]}
{"id": "C95", "title": "A resolution advisory is told as it was sent", "statement": "When an aircraft sends its resolution advisory - the orders to the pilot, the sides it must not pass, whether it is over, how many threats, and the threat by its address or by its altitude, range and bearing - in an air-air reply, in an extended squitter or in the register 3,0 of a Comm-B reply, the library accepts it and tells this advisory, field by field, with this threat.", "quantifier": "every advisory, for one or several threats, every threat identified by an address or a position, every address, altitude and version", "why_tests_cant": "all advisories in three formats", "anchors": ["pkg/acas/ra:ReadResolutionAdvisory", "pkg/bds/bds30", "pkg/bds/bds61", "pkg/modes/messages", "pkg/commb/reader:ReadCommBMessage"]}
{"id": "C96", "title": "Track and heading reports with missing values", "statement": "When an aircraft that does not know every value answers with its track and turn report (register 5,0) or its heading and speed report (register 6,0), ReadCommBMessage lists this register once, with the values the aircraft knows marked as available, in their units and with their signs, and the others marked as not available and zero.", "quantifier": "every subset of the values and every value in the limits of the register", "why_tests_cant": "2^5 subsets of values over 2^45 registers", "anchors": ["pkg/commb/reader:ReadCommBMessage", "pkg/bds/bds50", "pkg/bds/bds60"]}
{"id": "C97", "title": "Weather, services and status registers are told as they were sent", "statement": "When an aircraft answers with its meteorological routine report (4,4), its hazard report (4,5), its list of common services (1,7), its squitter status (0,7) or an empty register (0,0), ReadCommBMessage lists this register, exactly once, with every value the aircraft sent: each wind, temperature, pressure, humidity, turbulence, hazard level, height and service, and the others marked as not available.", "quantifier": "every subset of the values and every value in the limits of the register", "why_tests_cant": "2^56 registers", "anchors": ["pkg/commb/reader:ReadCommBMessage", "pkg/bds/bds00", "pkg/bds/bds07", "pkg/bds/bds17", "pkg/bds/bds44", "pkg/bds/bds45"]}
{"id": "C98", "title": "Vertical intention and capability are told as they were sent", "statement": "When an aircraft answers with its selected altitudes, pressure setting and autopilot modes (register 4,0) or with its data link capability (register 1,0), ReadCommBMessage lists this register, exactly once, with every value the aircraft sent.", "quantifier": "every subset of the values and every value of the registers", "why_tests_cant": "2^56 registers", "anchors": ["pkg/commb/reader:ReadCommBMessage", "pkg/bds/bds40", "pkg/bds/bds10"]}
{"id": "C99", "title": "An operational status is told as it was sent", "statement": "When an aircraft sends its operational status in an extended squitter, for version 0, 1 or 2 of ADS-B, in flight or on the ground, the library accepts the frame and tells the address of the aircraft, the format, every capability, operational mode, size, antenna offset, accuracy and integrity that was sent, and the version of ADS-B of the aircraft, whatever version the caller supposed.", "quantifier": "every value of every field of the five formats, address, capability, version supposed by the caller and flags", "why_tests_cant": "a chain of readers over 2^40 statuses", "anchors": ["pkg/modes/reader", "pkg/modes/crc", "pkg/adsb/reader", "pkg/bds/bds65"]}
{"id": "C100", "title": "A target state is told as it was sent", "statement": "When an aircraft sends its target altitude and heading, its selected altitude, pressure setting, heading and autopilot modes in an extended squitter (type 29, both subtypes), the library accepts the frame and tells the address of the aircraft and each of these values, in their units and with their signs, and which of them are not known.", "quantifier": "every value of every field of the two formats, address, capability, version supposed by the caller and flags", "why_tests_cant": "a chain of readers over 2^49 states", "anchors": ["pkg/modes/reader", "pkg/modes/crc", "pkg/adsb/reader", "pkg/bds/bds62"]}
{"id": "C101", "title": "The command prints what the library reads", "statement": "For every frame that ReadMessage accepts and whose parity CheckCRC accepts, given in hexadecimal as the first word or on a line of the file, the command prints the input, the origin of the frame with the address CheckCRC gives, every field of the message ReadMessage returns, and every field of the content: the resolution advisory of an air-air reply, the ADS-B message that ReadADSBMessage returns for the payload of an extended squitter, each of the registers that ReadCommBMessage lists for the payload of a Comm-B reply, in its order; the title of each field is followed by its value; the device that is not a transponder is read and printed as an aircraft sending the same payload.", "quantifier": "every frame, every list of registers, every version of the reader, any number of lines, and every printing of floating-point numbers on one line", "why_tests_cant": "a chain over all frames and all their contents", "anchors": ["cmd/main.go:main,processSingleLine", "pkg/modes/reader", "pkg/adsb/reader", "pkg/commb/reader", "pkg/acas/ra"]}
{"id": "C102", "title": "What is read where the library departs from the standard", "statement": "The messages the library misreads are misread in one way, which a caller can rely on or correct: for every input, the altitude of a threat is that of its code with the pulses C1 and A1 added at the place of B2 and D2, and the last bit of its range is zero; an aircraft status of subtype 0 is accepted whatever its bits 17 to 56; the last four bits of a target heading are those of bits 17 to 20, the type of the selected altitude is bit 8, a selected heading is a sign and a magnitude; the register 0,7 is accepted whatever its bits 7 and 8; the register 1,0 tells twice bit 18 for the surveillance identifier; the register 4,0 tells each altitude at the place of the other and the pressure as available when the first altitude is; the register 4,4 tells the wind without its first bit and no source, and its older format takes the sign of the temperature in bit 32; the surface position of type 7 in version 1 without the supplement tells the category 8 and a radius of at least 0.1 NM; the sense of an advisory and the continuation flag of the register 1,0 are not in the text, and the sectors of the bearings above 252 degrees are told modulo 256. Everything else in these messages is read as the standard says.", "quantifier": "every input of the readers, accepted or refused, and every message to print", "why_tests_cant": "2^48 advisories, 2^56 registers", "anchors": ["pkg/acas/ra:ReadResolutionAdvisory", "pkg/bds/bds07", "pkg/bds/bds10", "pkg/bds/bds30", "pkg/bds/bds40", "pkg/bds/bds44", "pkg/bds/bds61", "pkg/bds/bds62", "pkg/adsb/reader:ReadADSBMessage"]}
{"id": "C103", "title": "The number of longitude zones is that of the published table", "statement": "The number of longitude zones from which the positions are decoded is, at every latitude, the one of the table of 58 latitudes published in the standard (Doc 9871 C.2.6.2, DO-260B A.1.7.2): in exact arithmetic everywhere but within 1e-8 degree of a latitude of the table, whose last digit this is; in floating point, further than 1/9000 degree from them and 1/1000 degree from the equator.", "quantifier": "every latitude, every binary64 number, and every trigonometric library with an error of at most 1e-14", "why_tests_cant": "a continuum of latitudes and 59 regions", "anchors": ["pkg/geo:getNumberOfLongitude,GetCPRAirborneLocalPosition,GetCPRAirborneGlobalPosition"]}
{"id": "C104", "title": "Every code is shown with its meaning", "statement": "The text of each code of each enumerated field - of Mode S, of ADS-B versions 0 to 2, of the Comm-B registers and of the resolution advisories - is the meaning that the standard gives to this code, preceded by the code where the field shows it; a code that the standard does not define is shown as unknown, with its value.", "quantifier": "the 136 enumerated fields and every code", "why_tests_cant": "136 tables and all the codes outside them", "anchors": ["pkg/modes/fields", "pkg/adsb", "pkg/bds/bds05/fields", "pkg/bds/bds06/fields", "pkg/bds/bds07/fields", "pkg/bds/bds08/fields", "pkg/bds/bds09/fields", "pkg/bds/bds10/fields", "pkg/bds/bds40/fields", "pkg/bds/bds44/fields", "pkg/bds/bds45/fields", "pkg/bds/bds61/fields", "pkg/bds/bds62/fields", "pkg/bds/bds65/fields", "pkg/acas/ra/fields"]}
{"id": "C105", "title": "A message keeps its frame", "statement": "Nothing is lost when a frame is read: the message ReadMessage returns gives back the frame byte for byte from its raw part, two different frames are never read as the same message, and, when CheckCRC accepts it, the frame is exactly the one a transmitter makes by writing the fields of the message one after the other and adding the parity (with the address CheckCRC gives over it, or announced in an extended squitter). In particular the library accepts as an extended squitter the frames that are one, and no other.", "quantifier": "every frame, accepted message, list of addresses and interrogators", "why_tests_cant": "all 2^112 frames, and injectivity over pairs of them", "anchors": ["pkg/modes/reader:ReadMessage", "pkg/modes/reader/crc.go:CheckCRC", "pkg/modes/messages"]}
{"id": "C106", "title": "Airborne positions are decoded at every latitude, the equator included", "statement": "The positions of airborne aircraft come back from their messages - from a pair of squitters, of an aircraft that moves or not, or from one squitter and a reference - to half a step of the encoding, at the equator and on both sides of it as elsewhere: no latitude is excluded but those within 1e-4 degree of a change of the number of longitude zones. This holds for every mathematical library whose cosine and square are within 1e-15; with less, an accurate library may make the number of zones 60 next to the equator, where it must be 59, and surface positions have latitudes there.", "quantifier": "every latitude, longitude, altitude, move below the limit, reference, frame, and every library within the errors", "why_tests_cant": "a continuum of positions around a singular point of the formula", "anchors": ["pkg/geo:getNumberOfLongitude,GetCPRAirborneGlobalPosition,GetCPRAirborneLocalPosition", "pkg/modes/reader:ReadMessage", "pkg/adsb/reader:ReadADSBMessage"]}
{"id": "C107", "title": "No latitude is excluded for airborne positions", "statement": "The transmitter chooses the number of its longitude zones at the latitude that its message stands for (DO-260B A.1.7.3.c), not at its own. With that, for every latitude from pole to pole, including those arbitrarily close to the 58 latitudes where the number of zones changes and those latitudes themselves: one airborne position message and a reference give the position to half a step of the encoding; and a pair of messages, of an aircraft that moves or not, gives the position when the two messages have the same number of zones, and an error - never a wrong position - when they have not.", "quantifier": "every latitude from -90 to 90 and every longitude of each of the two messages, every move the encoding can tell, every reference within half a zone, every library that computes cosines and squares within 1e-15 and arc cosines within 1e-14 up to 1e-5 of -1 and 1", "why_tests_cant": "what goes wrong next to a change of zones is a rounding in the last bits of the computation, at one of some four million latitudes; no test can tell that none of these is too close for binary64", "anchors": ["pkg/geo:getNumberOfLongitude,GetCPRAirborneGlobalPosition,GetCPRAirborneLocalPosition", "pkg/modes/reader:ReadMessage", "pkg/adsb/reader:ReadADSBMessage"]}
{"id": "C108", "title": "An aircraft is followed over any history of frames", "statement": "A receiver that keeps the last position of an aircraft and gives it to GetCPRAirborneLocalPosition or GetCPRSurfaceLocalPosition as the reference of the next position squitter of that aircraft follows it from gate to gate, as long as it hears it often enough: after any number of frames - position squitters of the aircraft, in the air or on the ground, even or odd in any order, with any losses between them below 2.99 degrees of latitude (0.74 on the ground) and half a longitude zone, mixed with any other frames: squitters of other aircraft, other messages of the same one, positions without altitude, damaged squitters, replies, garbage - the position it holds is that of the last report of the aircraft to half a step of its encoding; errors do not add up. The first position may come from GetCPRAirborneGlobalPosition, from GetCPRSurfaceGlobalPosition, or from a first report and a known place near enough. The longitude is continuous: over the 180th meridian it goes on beyond 180 degrees.", "quantifier": "every history of frames of any length, every path and speed below the limits and no further than 200 degrees of longitude from the first report, every start, version and library as in C107; in the air every latitude, on the ground every latitude but those within 6 m of the equator and beyond 86.9999 degrees", "why_tests_cant": "an induction over histories; the state carried from frame to frame is a rounded position, whose errors must not accumulate", "anchors": ["pkg/geo:GetCPRAirborneLocalPosition,GetCPRSurfaceLocalPosition,GetCPRAirborneGlobalPosition", "pkg/modes/reader:ReadMessage", "pkg/modes/reader/crc.go:CheckCRC", "pkg/adsb/reader:ReadADSBMessage"]}
{"id": "C109", "title": "A value the aircraft does not know does not hide the others", "statement": "Whatever an aircraft does not know, a receiver is told of the rest. Each quantity of a velocity squitter - the two components of the ground speed or the airspeed, the vertical rate, the difference of the altitudes - may be missing, have a value, or be beyond the largest value that can be sent, independently of the others: its status says which, its value is the one sent (0 when missing, the limit when beyond), and nothing else of the message changes; the speed over the ground is given when both components have values, and otherwise GetSpeed returns an error that names the first one that has not. A position squitter whose altitude is missing still gives its position.", "quantifier": "every combination of missing, known and excessive quantities, every value, aircraft, version and frame", "why_tests_cant": "3^4 combinations of fields with 2^27 values each, for each of four subtypes", "anchors": ["pkg/bds/bds09:ReadAirborneVelocity", "pkg/bds/bds09:AirborneVelocityGroundSpeedNormal.GetSpeed,AirborneVelocityGroundSpeedSupersonic.GetSpeed", "pkg/bds/bds05:ReadAirbornePosition", "pkg/adsb/reader:ReadADSBMessage"]}
{"id": "C110", "title": "The integrity told of a position follows the last operational status", "statement": "Which integrity code and radius a position stands for depends on the version of ADS-B of the aircraft and on its NIC supplements, which only its operational status tells. A receiver that supposes version 0 of an aircraft it has not heard, keeps the version and the supplements carried by each operational status the library reads, and gives them to ReadADSBMessage, knows after any history of frames what the aircraft told last - whatever it supposed before, in whatever order statuses of version 0, 1 and 2, in flight or on the ground, come, mixed with any other frames, damaged ones and those of other aircraft included - and each position squitter is then told with the integrity that the table of that version gives to its type and these supplements.", "quantifier": "every history of frames of any length, every status, position and aircraft", "why_tests_cant": "an induction over histories, in which what is read depends on what was read before", "anchors": ["pkg/adsb/reader:ReadADSBMessage", "pkg/bds/bds65:ReadAircraftOperationalStatus", "pkg/adsb/airborne_position:ReadAirbornePosition", "pkg/adsb/surface_position:ReadSurfacePosition", "pkg/modes/reader:ReadMessage", "pkg/modes/reader/crc.go:CheckCRC"]}
{"id": "C111", "title": "A receiver follows each of the aircraft it hears", "statement": "A receiver that keeps a table of the aircraft, each with the version it announced and its last position, and that on every frame changes only the entry of the address CheckCRC accepts, mixes nothing: after any interleaving of the frames of any number of aircraft, the entry of each one is the one that a receiver of its frames only would have. Each aircraft that is heard often enough is at the place of its last report, to half a step of the encoding, and of the version and supplements it told last, although the version used to read its messages changes while they are heard.", "quantifier": "every history of frames of any length from any number of aircraft, every table, path and library as in C107 and C108", "why_tests_cant": "interleavings of histories; what is read from a frame depends on the frames before it", "anchors": ["pkg/modes/reader:ReadMessage", "pkg/modes/reader/crc.go:CheckCRC", "pkg/adsb/reader:ReadADSBMessage", "pkg/geo:GetCPRAirborneLocalPosition,GetCPRSurfaceLocalPosition", "pkg/bds/bds65:ReadAircraftOperationalStatus"]}
{"id": "C112", "title": "No latitude is excluded for positions on the ground, but the equator and the pole caps", "statement": "The transmitter on the ground chooses the number of its longitude zones at the latitude that its message stands for. With that, at every latitude between 1e-4 and 86.9998 degrees north or south, including those arbitrarily close to the latitudes where the number of zones changes: one surface position message and a reference give the position to half a step of the encoding; and a pair of messages with a reference in the same hemisphere and within 45 degrees of longitude, of an aircraft that taxies or not, gives the position when the two messages have the same number of zones, and an error - never a wrong position - when they have not.", "quantifier": "every position but those within 6 m of the equator and beyond 86.9998 degrees, every pair of positions of an aircraft that moves less than 0.0126 degree of latitude and than the limit in longitude, every reference near enough, address, version and other fields, and every library as in C107", "why_tests_cant": "the latitudes of surface messages are four times as dense as those of airborne ones: one of some fifteen million is 8e-9 degree from a change of zones, where only a bound on the rounding of each operation tells on which side binary64 falls", "anchors": ["pkg/geo:GetCPRSurfaceLocalPosition,GetCPRSurfaceGlobalPosition", "pkg/adsb/reader:ReadADSBMessage", "pkg/bds/bds06:ReadSurfacePosition"]}
{"id": "C113", "title": "What an aircraft answers is kept under its address, once it is known", "statement": "The replies to interrogations (DF0, 4, 5, 16, 20, 21) do not carry the address of the aircraft in clear. A receiver that adds to its list the address of every squitter CheckCRC accepts, gives that list to CheckCRC with every reply, and keeps the altitude or the squawk under the address CheckCRC returns, holds for each aircraft after any history of frames exactly the last altitude and squawk that this aircraft answered since it was known, and nothing for an aircraft that no squitter announced; the replies and squitters of other aircraft, garbage, and replies damaged in up to five bits or a burst of 24 do not change what it holds of that aircraft. The list must not be empty at the start: with an empty list CheckCRC lets every reply through, and each frame that can be read as a reply is kept for an address that may be no aircraft at all.", "quantifier": "every history of frames of any bytes and any length, every aircraft, every list at the start but the empty one", "why_tests_cant": "interleavings of histories; whether a reply is attributed depends on the frames before it and on the cyclic code of all its bits", "anchors": ["pkg/modes/reader:ReadMessage", "pkg/modes/reader/crc.go:CheckCRC", "pkg/modes/messages:MessageDF0,MessageDF4,MessageDF5,MessageDF16,MessageDF17,MessageDF20,MessageDF21"]}
{"id": "C114", "title": "The callsign, the emergency and the velocity of an aircraft are those it said last", "statement": "A receiver that reads every frame, checks it with CheckCRC, reads the message of each accepted extended squitter and keeps the callsign, the emergency state with the Mode A code, and the velocity under the address, holds after any history of frames, for each aircraft and each of the three subjects, what the last squitter of this aircraft about that subject says, and nothing when there was none. Squitters of other aircraft, about other subjects, with a reserved subtype or with reserved bits set, replies, and any other bytes change nothing; the version and the supplements the receiver assumes do not matter.", "quantifier": "every history of frames of any bytes and any length, every address, every version and supplements, the three subjects", "why_tests_cant": "interleavings of histories; whether a frame changes the entry depends on its cyclic code and on all the bits that select the reader", "anchors": ["pkg/modes/reader:ReadMessage", "pkg/modes/reader/crc.go:CheckCRC", "pkg/adsb/reader:ReadADSBMessage", "pkg/bds/bds08", "pkg/bds/bds09", "pkg/bds/bds61"]}
{"id": "C115", "title": "The registers kept of a known aircraft are those it answered last", "statement": "A Comm-B reply carries neither the address of the aircraft in clear nor the number of its register. A receiver that gives CheckCRC the addresses it knows (at first at least one, then those of the accepted squitters), reads the register of each accepted DF20 or DF21 reply with ReadCommBMessage, and keeps the callsign, the track report or the heading report among the candidates under the address CheckCRC returns, holds after any history of frames, for each aircraft, what the last register of that look which the aircraft answered since it was known says, and nothing when there was none. A track or heading report is missed exactly when the 56 bits also are an empty register, a status 0,7 or a callsign, and the register of another kind is mistaken for one exactly when its bits pass the checks of that report; replies of other aircraft, of other formats, DF20 replies whose altitude means nothing, and any other bytes change nothing.", "quantifier": "every history of frames of any bytes and any length, every address, every list at the start but the empty one, the three registers", "why_tests_cant": "interleavings of histories; whether a reply changes an entry depends on the frames before it, on its cyclic code and on every bit of its register", "anchors": ["pkg/modes/reader:ReadMessage", "pkg/modes/reader/crc.go:CheckCRC", "pkg/commb:ReadCommBMessage", "pkg/modes/messages:MessageDF17,MessageDF20,MessageDF21", "pkg/bds/bds20", "pkg/bds/bds50", "pkg/bds/bds60"]}
{"id": "C116", "title": "Only the order of the frames of the aircraft itself matters", "statement": "Receivers often merge what several antennas hear. What such a receiver holds of an aircraft, the callsign, emergency and velocity of its squitters, or of any other content of an ADS-B message, its position decoded from the last one, the altitude and squawk of its replies, and any register of its Comm-B replies, whether it is known or not, is the same for any two sequences of frames in which the frames this aircraft sent come in the same order, however the frames of other aircraft, garbage and damaged frames are placed between them, and whatever they are.", "quantifier": "all pairs of sequences of frames of any bytes and any length with the same own frames, every address, every content picked in the messages, every list at the start but the empty one", "why_tests_cant": "all interleavings; the frames of others change the list of known addresses that CheckCRC is given for the next ones", "anchors": ["pkg/modes/reader:ReadMessage", "pkg/modes/reader/crc.go:CheckCRC", "pkg/adsb/reader:ReadADSBMessage", "pkg/commb:ReadCommBMessage"]}
{"id": "C117", "title": "The text of a Mode S message tells every field of it", "statement": "Two frames whose messages have the same text are read alike: the two messages have the same format and the same value of every field (only the raw part, with the parity and the spare bits, may differ). For extended squitters with the right parity, also from devices that are not transponders, the text determines the frame: two of them with the same text are the same frame. So a log of the printed texts loses nothing that was decoded, and equal lines can be merged.", "quantifier": "every two accepted frames, and every list of addresses and interrogators", "why_tests_cant": "injectivity is about all pairs of frames: two labels that share a number, a number without a separator or an ambiguous list would show only for some pair", "anchors": ["pkg/modes/messages/*.go:ToString", "pkg/modes/fields/*.go:ToString", "pkg/modes/reader:ReadMessage"]}
