#!/usr/bin/env python3
"""Writes /verif/properties.jsonl.  The property texts live here so they can be edited as prose."""
import json, os
C='codec/src/main/java/com/finproto/codec/'
B='codec/src/main/java/com/finproto/bitmap/'
SAMPLE='sample-bin/src/main/java/com/finproto/sample/messages/'
SSE='sse-bin/src/main/java/com/finproto/sse/bin/messages/'
SZSE='szse-bin/src/main/java/com/finproto/szse/bin/messages/'
BJSE='bjse-bin/src/main/java/com/finproto/bjse/trade/messages/'
RISK='risk-bin/src/main/java/com/finproto/risk/bin/messages/'
ALL=[m+'*.java: encode, decode' for m in (SAMPLE,RISK,SSE,SZSE,BJSE)]
P=[]
def p(title, statement, quantifier, why, anchors):
    P.append(dict(id='C%02d'%(len(P)+1), title=title, statement=statement, quantifier=quantifier,
                  why_tests_cant=why, anchors=anchors))

p('writeFixedString writes exactly len bytes',
  'writeFixedString(buf, value, len, pad, padLeft) on a buffer with room appends exactly len bytes: the first min(len, n) bytes of the UTF-8 form of value and len-n pad bytes on the side padLeft selects. Nothing that was in the buffer before changes and the reader index does not move. null and "" give len pad bytes (right padding only; for left padding see C47). Without room it throws IndexOutOfBounds, and earlier content is still unchanged.',
  'every string (null, empty, non-ASCII, unpaired surrogates, over-long), every len >= 0, every pad char, both sides, every buffer',
  'The unit tests try four strings; the claim is about every string length against every field width.',
  [C+'BinaryCodec.java: writeFixedString, padChar'])
p('fixed string round trip',
  'Reading back a fixed string written by writeFixedString with the same width, pad char and side returns the original string, if the string is valid UTF-16, its UTF-8 form fits and it does not begin (padLeft) or end (otherwise) with the pad char. null comes back as "".',
  'every valid string, width, ASCII pad char, side and surrounding buffer content',
  'The relation between UTF-8 length, padding and trimming has to hold for every string, including multi-byte text that exactly fills the field.',
  [C+'BinaryCodec.java: writeFixedString, readFixedString, trimByChar'])
p('what a lossy fixed string becomes',
  'When the UTF-8 form fits, reading back gives exactly the string with its run of pad chars removed on the pad side, whatever the string is; for ASCII text of any length it gives the first len characters with that run removed. So the only information lost is the cut-off tail and the boundary pads.',
  'every valid string / every ASCII string of any length, every width and pad',
  'Loss happens at boundaries that depend on both the data and the width; examples cannot show that nothing else is lost.',
  [C+'BinaryCodec.java: writeFixedString, readFixedString, trimByChar'])
p('readFixedString consumes exactly len bytes or throws',
  'readFixedString(buf, len) either returns a string of at most len chars and advances the reader by exactly len, or throws IndexOutOfBounds with the reader unmoved; the string is what those len bytes decode to, without the pads; it never throws for malformed UTF-8 and never writes to the buffer. It throws iff len bytes are not available (see C30 for what the buffer counts as available).',
  'every buffer content (any bytes), every reader position and len',
  'Arbitrary byte sequences, including malformed UTF-8, cannot be enumerated by tests.',
  [C+'BinaryCodec.java: readFixedString'])
p('trimByChar is the maximal one-sided trim',
  'trimByChar(s, ch, padLeft) returns s without its longest run of ch at that side: s is that run plus the result, the result does not begin (end) with ch, the other side is untouched, and trimming twice is trimming once.',
  'every string, every char, both sides',
  'Loop boundary conditions (empty string, all pad chars) must be right for every string.',
  [C+'BinaryCodec.java: trimByChar'])
p('ByteBitMap and ShortBitMap behave as sets of positions',
  'For positions inside bitCount(), after any sequence of set/clear calls get(p) is true iff the last call naming p was set(p) (false if none); set/clear of one position never changes another.',
  'every sequence of operations of any length, every in-range position',
  'The tests use four operations on one map; the law is about every history and includes the sign bit of byte and short.',
  [B+'ByteBitMap.java: set, clear, get', B+'ShortBitMap.java: set, clear, get'])
p('clear on IntBitMap and LongBitMap',
  'Users rely on clear(p) making get(p) false. IntBitMap.clear and LongBitMap.clear do the opposite: after clear(p), get(p) is true, for every map and every in-range p, so no sequence of calls ever unsets a bit. (Violation: IntBitMap.java:15-18, LongBitMap.java:15-18 use |= bit.)',
  'every bitmap state, every in-range position, every operation sequence',
  'No test covers these classes; the failure has to be shown for all states to be sure no sequence works around it.',
  [B+'IntBitMap.java: clear, set, get', B+'LongBitMap.java: clear, set, get'])
p('ByteBitMap wire round trip',
  'write then read of a ByteBitMap restores every bit, uses exactly one byte, and leaves following bytes unread.',
  'every bitmap state and every buffer',
  'Buffer contents and position are unbounded.',
  [B+'ByteBitMap.java: write, read'])
p('ShortBitMap wire round trip',
  'Users rely on read after write restoring the map. ShortBitMap loses positions 0 and 8 on every round trip and restores the other fourteen; if neither is set the round trip is exact.',
  'every bitmap state',
  'Which bits survive is a statement about all 65536 states and any buffer.',
  [B+'ShortBitMap.java: write, read'])
p('IntBitMap and LongBitMap wire round trip',
  'Users rely on read after write restoring the map. It does not hold: write emits the 7-bit groups high first, read assembles them low first, and write drops the positions outside the 28 (56) bits it emits. The exact map computed by the round trip is stated bit by bit, and the states that survive are characterised.',
  'every bitmap state',
  'The permutation of positions has to be stated for all 2^32 and 2^64 states.',
  [B+'IntBitMap.java: write, read', B+'LongBitMap.java: write, read'])
p('variable-length bitmap read stops at the first byte without the continuation bit',
  'IntBitMap.read and LongBitMap.read consume bytes up to and including the first byte below 0x80 and no further; if the buffer ends first they throw IndexOutOfBounds after consuming everything. They always terminate.',
  'every buffer content of any length',
  'Adversarial input may hold any number of continuation bytes.',
  [B+'IntBitMap.java: read', B+'LongBitMap.java: read'])
p('SSE and SZSE checksums are the byte sum modulo 256',
  'Both sum checksums return the sum of the unsigned readable bytes modulo 256, the value of the C reference code quoted in their comments (with signed or unsigned char), agree with each other on every buffer, lie in 0..255, and change neither index nor content of the buffer.',
  'every buffer content and reader position of any length',
  'One implementation reduces at each step, the other sums in a long; agreement for all lengths needs induction.',
  [C+'SseBinChecksumService.java: calc', C+'SzseBinChecksumService.java: calc'])
p('CRC16 is CRC-16/MODBUS',
  'Crc16ChecksumService.calc equals the bit-serial CRC-16/MODBUS (reflected polynomial 0xA001, initial value 0xFFFF) of the readable bytes and lies in 0..65535; the buffer is unchanged.',
  'every byte string of any length',
  'The test checks the single string 123456789.',
  [C+'Crc16ChecksumService.java: CRC_TABLE, calc'])
p('CRC32 is CRC-32/ISO-HDLC',
  'Crc32ChecksumService.calc equals the bit-serial CRC-32/ISO-HDLC (reflected polynomial 0xEDB88320, initial and final xor 0xFFFFFFFF) of the readable bytes, as a signed Java int; the buffer is unchanged.',
  'every byte string of any length',
  'The test checks the single string 123456789.',
  [C+'Crc32ChecksumService.java: CRC_TABLE, calc'])
p('checksums detect local corruption',
  'Two byte strings of the same length that differ only inside one window of at most 2 (CRC16) or 4 (CRC32) consecutive bytes have different CRCs; for the sum checksums the same holds for a single byte. Swapping two bytes is never noticed by the sum checksums.',
  'every message length, every window position, every corruption inside the window',
  'Error detection quantifies over all messages and all corruptions.',
  [C+'Crc16ChecksumService.java: calc', C+'Crc32ChecksumService.java: calc', C+'SseBinChecksumService.java: calc', C+'SzseBinChecksumService.java: calc'])
p('CRC of a message followed by its own CRC is a constant',
  'Appending the little-endian CRC to a message gives a byte string whose CRC is the algorithm constant (0 for CRC16, 0x2144DF1C for CRC32), and only the right CRC does. In particular a RootPacket encoded into an empty buffer with the default registry yields a frame whose CRC32 is 0x2144DF1C.',
  'every message, and every RootPacket that encode accepts',
  'Receivers of the protocol check frames this way; it must hold for every frame.',
  [C+'Crc32ChecksumService.java: calc', SAMPLE+'RootPacket.java: encode'])
p('verify is calc followed by comparison',
  'verify(buf, x) returns true iff x is non-null and equals calc(buf); it leaves the buffer as it was, so verify(buf, calc(buf)) is true, repeatedly.',
  'every service, buffer and expected value',
  'Ranges over all buffers and expected values.',
  [C+'ChecksumService.java: verify'])
p('checksum registry behaves as a first-wins map',
  'After any sequence of registry/removeChecksumService/clearAllChecksumService calls, getChecksumService(name) returns the service of the earliest registration of that name since it was last removed or cleared (null if none), and registry returns true iff the name was free. Initially exactly CRC16 and CRC32 are present.',
  'every history of registry operations',
  'History-dependent behaviour over unbounded operation sequences.',
  [C+'ChecksumServiceFactory.java: registry, removeChecksumService, clearAllChecksumService, getChecksumService'])
p('concurrent registration',
  'Users rely on registry answering true to at most one of several concurrent registrations of one name. Called one after another this holds; but because containsKey and put are separate unsynchronised steps, there is an interleaving of two threads in which both get true and the first service is silently replaced.',
  'every interleaving of any number of concurrent registry calls (each map operation taken as atomic)',
  'A schedule property: tests do not control the schedule.',
  [C+'ChecksumServiceFactory.java: registry'])
p('message factories behave as last-wins maps',
  'After any sequence of register/remove calls on a message factory, create(k) returns a new instance of the class most recently registered for k and not removed since, and throws IllegalArgumentException if there is none; remove answers whether the key was present. Operations on one factory do not affect another.',
  'every history of operations on every factory',
  'History-dependent behaviour over unbounded operation sequences.',
  [SAMPLE+'RootPacket.java: PayloadMessageFactory', SSE+'SseBinary.java: BodyMessageFactory', SZSE+'SzseBinary.java: BodyMessageFactory', BJSE+'BjseBinary.java: BodyMessageFactory', RISK+'RcBinary.java: BodyMessageFactory', SZSE+'NewOrder.java: ApplExtendMessageFactory'])
p('SSE type tags and classes correspond one to one',
  'Initially SseBinary.BodyMessageFactory.getMsgType(c)=t iff create(t) makes a c, and every MessageType constant has such a class and fromValue(getValue(x))=x; constants, values and classes are exactly those of a table read off the source separately (Spec/Tags.v). Users rely on this after further registrations too; it fails after remove (getMsgType keeps answering) and after re-registering a tag.',
  'every class, every int tag, every history of register/remove',
  'Needs all tags (2^32) and all histories.',
  [SSE+'SseBinary.java: BodyMessageFactory, MessageType'])
p('round trip of every message class',
  'For every message class of the library and every object of it that fits its wire format (strings valid, fitting and not ending in pad; list sizes and string lengths within the signed length prefix; required sub-objects present; left-padded strings not empty; body class the one the receiver has registered for its tag): if encode returns normally, then decode into a new object, from any buffer whose next bytes are those encode appended, returns normally and gives an object with the same field values, up to null/"" and null/empty-list and with length and checksum fields as encode set them.',
  'all 182 message classes (including nested ones), all field values, all list lengths, all nesting depths, all checksum registries and factory contents, all buffers',
  'Each class has one test with one value; the claim ranges over all values, sizes and nestings.',
  ALL)
p('encode appends exactly the wire format',
  'If encode returns normally the buffer content is the old content followed by the concatenation of the wire forms of the fields in declaration order, each in its declared width and byte order; bytes before the old writer index and the reader index are unchanged.',
  'all message classes, all objects, all buffers and growth policies',
  'Needs all values and buffer states; tests only look at decode(encode(x)).',
  ALL)
p('decode consumes exactly what encode wrote; streams of messages decode in order',
  'decode stops at the end of the bytes encode wrote, leaving anything after them unread. Hence any sequence of messages encoded one after another into a buffer is decoded, one after another, to the same sequence.',
  'all sequences of messages of any length and any mix of classes',
  'Tests decode single messages from exact buffers.',
  ALL)
p('encoding is injective and prefix-free',
  'Two round-trippable objects of one class with the same encoded bytes have the same field values (up to the normalisation of C22), and no encoded object is a proper prefix of another of the same class.',
  'all pairs of objects of every class',
  'A statement about pairs of arbitrary messages.',
  ALL)
p('frame length field',
  'RootPacket, SseBinary, SzseBinary and RcBinary encode set the length field, in the object and in the bytes, to the number of bytes the body occupies, whatever value it held before. BjseBinary writes the stored bodyLength unchanged, so the same claim fails for it.',
  'all frames, all bodies, all previous field values, all buffers',
  'Body sizes vary with content; the stale-value case needs all previous values.',
  [SAMPLE+'RootPacket.java: encode', SSE+'SseBinary.java: encode', SZSE+'SzseBinary.java: encode', RISK+'RcBinary.java: encode', BJSE+'BjseBinary.java: encode'])
p('frame checksum',
  'With a service registered under the frame\'s algorithm, encode stores and writes the service\'s value of all unread bytes of the buffer, from the reader index to just before the checksum field; this is the checksum of the frame itself if there were no unread bytes before. Users rely on the frame\'s own checksum always; with earlier unread bytes in the buffer (two frames encoded back to back) the written checksum covers them too and differs.',
  'all frames, all registries, all buffer states',
  'Depends on buffer state before the call.',
  [SAMPLE+'RootPacket.java: encode', SSE+'SseBinary.java: encode', SZSE+'SzseBinary.java: encode'])
p('default registry and exchange checksums',
  'In the initial state no service is registered under SSE_BIN or SZSE_BIN, so SseBinary and SzseBinary write whatever checksum the object held; after registering the service they write the byte sum.',
  'all frames and all stored checksum values',
  'Ranges over all objects.',
  [C+'ChecksumServiceFactory.java: ChecksumServiceFactory', SSE+'SseBinary.java: encode', SZSE+'SzseBinary.java: encode'])
p('decode of frames does not validate length or checksum',
  'Users may rely on a corrupted frame being rejected. decode accepts every value in the length and checksum fields: changing these bytes changes only the corresponding getters and nothing else in the result.',
  'all frames, all replacement values of the two fields',
  'Ranges over all corruptions.',
  [SAMPLE+'RootPacket.java: decode', SSE+'SseBinary.java: decode', SZSE+'SzseBinary.java: decode', BJSE+'BjseBinary.java: decode', RISK+'RcBinary.java: decode'])
p('truncated input is rejected',
  'Decoding a strict prefix of an encoded message throws IndexOutOfBounds, if the buffer has no spare capacity behind its writer index (e.g. a wrapped byte array). With spare capacity this fails: a message cut inside a trailing fixed string decodes without error, because readCharSequence in netty 4.1.100 checks capacity, not readable bytes.',
  'all classes, all messages, all cut points',
  'All cut points of all messages.',
  ALL)
p('decode is total on arbitrary bytes',
  'decode of any bytes into a new object of any class either returns a well-typed object or throws IndexOutOfBounds or IllegalArgumentException (unknown tag); with the initial factories the nesting of decode calls is at most 4. It never throws anything else, never writes to the buffer, and always terminates.',
  'all classes, all byte strings of any length',
  'Adversarial input space.',
  ALL)
p('decoded collections are bounded by the input',
  'After decode (normal or not) of n available bytes into a new object, the total number of list elements in the object, at all levels, is at most n, and so is the total number of string chars: a length prefix cannot make it allocate more.',
  'all classes, all byte strings of any length',
  'Adversarial length prefixes up to 2^31-1.',
  ALL)
p('unknown tag',
  'If the tag read is not registered, decode throws IllegalArgumentException having consumed only the fields before the body, with those fields assigned and the old body object kept.',
  'all classes with a factory, all tags, all registries',
  'Ranges over all unregistered tags and registries.',
  [SSE+'SseBinary.java: decode, create', SZSE+'NewOrder.java: decode, create'])
p('decoding into a used object',
  'Users rely on decode overwriting the object. It does for classes without variable-length fields; otherwise a field whose length prefix is not positive keeps its old value, and nested objects are decoded in place. The resulting value is stated exactly; it equals decode into a new object iff no such field holds stale data.',
  'all classes, all old objects, all messages',
  'History of the object is unbounded.',
  ALL)
p('oversized lists and strings',
  'A list of more than 32767 elements (or a dynamic string of more than 32767 bytes) behind a 16-bit prefix is encoded without error but its prefix is the size modulo 65536 as a signed 16-bit number, so decode never yields it back. The round trip of C22 holds up to 32767.',
  'all list lengths and string lengths',
  'Boundary behaviour at sizes tests never build.',
  [SAMPLE+'BasicPacket.java: encode, decode', SAMPLE+'StringPacket.java: encode, decode'])
p('empty strings inside a list of dynamic strings are dropped',
  'Users rely on a list of strings coming back with the same length. decode of a StringPacket drops exactly the null and empty elements of its dynamic string lists and keeps the others in order.',
  'all lists of strings',
  'All list shapes.',
  [SAMPLE+'StringPacket.java: encode, decode'])
p('null parts',
  'encode throws NullPointerException iff a required sub-object, a list element that is an object, or a boxed number in a list is null (given room); a null string, list, or optional body never throws. A frame or order with a null body encodes to fewer bytes and the same class decodes them only by reading the body from the bytes that follow.',
  'all classes and objects',
  'All places a null may occur.',
  [SAMPLE+'NestedPacket.java: encode', SSE+'SseBinary.java: encode', SZSE+'NewOrder.java: encode'])
p('encode changes only length and checksum fields',
  'encode leaves every field of the object and of its sub-objects as it was, except length and checksum fields of frames. Encoding the returned object again into an equal buffer gives the same bytes and changes nothing.',
  'all classes, objects, buffers, registries',
  'All objects.',
  ALL)
p('failed encode leaves earlier content intact',
  'Whatever encode does, including throwing half way (no room, null part), the bytes before the old writer index and the reader index are unchanged. Given complete objects, encode throws iff the wire form does not fit under maxCapacity, and then it throws IndexOutOfBounds.',
  'all classes, objects, buffers, maximum capacities (every crash point)',
  'Every point at which encode may stop.',
  ALL)
p('equals is field-wise equality',
  'equals of any message class is reflexive, symmetric and transitive, true iff both objects have the same class and all fields equal, so it distinguishes any two messages with different field values; a decoded canonical message equals the original.',
  'all classes and all pairs of objects',
  'All pairs/triples of objects.',
  ['*-bin/src/main/java/**/*.java: equals'])
p('hashCode agrees with equals',
  'Users rely on hashCode terminating and on equal messages having equal hash codes. It holds for every message without an empty class in it; for the 28 field-less classes (e.g. Heartbeat, EmptyPacket), and every message containing one, hashCode calls itself without end (StackOverflowError).',
  'all classes and all pairs of equal objects',
  'All objects; non-termination at every stack depth.',
  ['*-bin/src/main/java/**/*.java: hashCode', SAMPLE+'EmptyPacket.java: hashCode'])
p('byte order is uniform per protocol',
  'Every multi-byte number in SSE, SZSE and risk messages is written and read big-endian, in BJSE and sample messages little-endian: the byte-reversed prefix or number never occurs.',
  'all classes and all numeric fields',
  'Round-trip tests cannot see a byte order that encode and decode share.',
  ALL)
p('fixed-size messages have a constant size',
  'For classes without lists, dynamic strings and bodies, every encoding has the same number of bytes, the sum of the field widths, whatever the field values (including null and over-long strings; a left-padded string must not be empty, see C47). Sizes of all others are the fixed part plus the contribution of the variable fields.',
  'all classes, all objects',
  'All values, including over-long and null strings.',
  ALL)
p('UTF-8 conversion',
  'Converting a valid UTF-16 string to UTF-8 and back is the identity; an unpaired surrogate becomes "?"; decoding arbitrary bytes yields valid UTF-16 with no more chars than bytes, and is the identity on ASCII. Bytes that are not UTF-8 are replaced by U+FFFD, one for every longest piece that could have begun a character, and the rest is decoded as if it stood alone.',
  'every char sequence and every byte sequence',
  'All sequences; boundary cases around surrogates.',
  [C+'BinaryCodec.java: writeFixedString, readFixedString'])
p('initial dispatch tables are unambiguous',
  'No tag is registered twice in the static initialiser of any factory, every registered class exists, and every factory key can actually be read from the wire field that selects it (numeric range, string width, no trailing pad). A tag creates the class a separately written table (Spec/Tags.v) has for it, and no other tag creates anything.',
  'all factories and all tags',
  'An entry shadowed by a later one is invisible to per-class tests.',
  [SZSE+'SzseBinary.java: BodyMessageFactory', SZSE+'NewOrder.java: ApplExtendMessageFactory', BJSE+'BjseBinary.java: BodyMessageFactory'])
p('re-encoding a decoded message reproduces the bytes',
  'For every message with arbitrary strings (over-long, ending in pads, null, with unpaired surrogates), as long as no over-long string is cut inside a character, no list of dynamic strings has an empty element and no left-padded field keeps pads only (in particular, for ASCII strings, only the last two matter), encoding it, decoding the bytes and encoding the result into a buffer with the same unread bytes gives the same bytes again. Each of the three exclusions is needed: there are messages of each kind whose bytes change.',
  'all classes, all objects, all nesting depths, all factory and registry contents, all buffers',
  'All values, in particular those that do not round-trip as objects.',
  ALL)
p('empty strings in left-padded fields',
  'Users rely on writeFixedString filling the whole field. With padLeft = true and a null or empty value it writes nothing at all, for every len and pad char, so the field is missing from the message and a reader takes the next len bytes for it. (Violation: BinaryCodec.java:17-31 pads on the left only inside the non-empty branch; sample.BasicPacket and sample.StringPacket have such fields.)',
  'every width, pad char and buffer',
  'The unit tests never write an empty left-padded string; the claim is that no width or pad makes it right.',
  [C+'BinaryCodec.java: writeFixedString', SAMPLE+'BasicPacket.java: encode', SAMPLE+'StringPacket.java: encode'])
p('positions outside a bit map',
  'set, clear and get never check the position. They take it modulo 32 (64 for LongBitMap). On ByteBitMap and ShortBitMap a position beyond bitCount() (modulo 32) leaves the map alone under set and clear, but get then answers with position 0 (sign extension), so get of an absent position may be true. bitCount() is the largest number of positions that are independent of each other.',
  'every map state and every int position, negative ones included',
  'The interface documents no range; the behaviour of 2^32 positions has to be stated as a law.',
  [B+'ByteBitMap.java: set, clear, get', B+'ShortBitMap.java: set, clear, get', B+'IntBitMap.java: set, clear, get', B+'LongBitMap.java: set, clear, get'])
p('CRCs detect two flipped bits, CRC16 any odd number',
  'Flipping exactly two bits of a message changes its CRC16 if they are less than 32767 bits apart and its CRC32 if they are less than 2^32-1 bits apart; the parity of the CRC16 is the parity of the message, so any odd number of flipped bits is noticed. At distance 32767 two flips cancel in CRC16.',
  'every message, every pair of bit positions',
  'The guarantee rests on the period of the shift register; all messages and all positions.',
  [C+'Crc16ChecksumService.java: CRC_TABLE, calc', C+'Crc32ChecksumService.java: CRC_TABLE, calc'])
p('decoding before all bytes have arrived',
  'Decoding the first part of some bytes either throws IndexOutOfBoundsException or does exactly what decoding all of them does (same exception or none, same object, same number of bytes consumed), provided the buffer has no spare capacity behind its writer index. So a receiver that retries into a fresh object after IndexOutOfBoundsException never gets a different message. With spare capacity (netty 4.1.100) it may get an object made of bytes that never arrived.',
  'all objects, bytes, cut points, factories, stack depths',
  'Every cut point of every byte sequence, including malformed ones.',
  ALL)
p('encode and decode see only what they should',
  'decode depends on the unread bytes only, not on bytes already read, indices, capacity or growth behaviour (no spare capacity assumed; refuted with it). encode appends the same bytes and leaves the same object whatever the buffer holds, except that a frame with a registered checksum also sums the unread bytes already in the buffer.',
  'all objects, pairs of buffers, factories, registries',
  'Pairs of arbitrary buffers.',
  ALL)
p('stack depth',
  'encode and decode give the same result on any stack on which they do not overflow, and encoding a complete object overflows exactly if its objects are nested deeper than the stack.',
  'all objects, buffers and stack depths',
  'All nesting depths.',
  ALL)
p('length fields delimit frames in a stream',
  'Frames of RootPacket, RcBinary, SseBinary and SzseBinary encoded one after another and followed by an incomplete frame are cut apart by their length fields exactly where encode put the boundaries. Not so for BjseBinary, whose length field is not computed.',
  'all sequences of objects, all registries and factories, any trailing incomplete frame',
  'All sequences and body sizes.',
  [SAMPLE+'RootPacket.java: encode', RISK+'RcBinary.java: encode', SSE+'SseBinary.java: encode', SZSE+'SzseBinary.java: encode', BJSE+'BjseBinary.java: encode'])
p('toString shows the whole message',
  'toString never fails on a well-typed object unless the stack is too small (exactly: fewer frames than nested objects). It gives the simple class name and every field once, in declaration order, with its value: integers in decimal, null as "null", lists in brackets, nested messages by the same rule. Equal objects have equal texts. Objects with equal texts are equal if their strings contain no comma or bracket and are not "null" and their classes are of one protocol; otherwise there are different objects with the same text.',
  'all classes, all objects, all stack depths, any rendering of float and double that tells different numbers apart',
  'A misspelt or missing field in one of 182 toString methods shows only with values that differ there.',
  [m+'*.java: toString' for m in (SAMPLE,RISK,SSE,SZSE,BJSE)])
p('getters and setters',
  'Each class has exactly one getter and one setter per field, getF and setF for field f. getF returns what f holds; setF changes f and no other field, so that getF returns the new value and all other getters return what they did; the object remains well-typed. A new object has zeros in its numeric fields and null elsewhere.',
  'all classes, all fields, all objects, all values',
  'Crossed accessors of two fields of the same type compile and pass symmetric set/get tests.',
  [m+'*.java: get*, set*' for m in (SAMPLE,RISK,SSE,SZSE,BJSE)])
p('sharing is invisible to encode',
  'A message may refer to the same object in several places (the same SubPacket twice in a list and as a field). Encoding it writes the same bytes and ends the same way as encoding a message in which every occurrence is an object of its own. So a message and a deep copy of it give the same bytes.',
  'all classes, all object graphs without cycles, all sharing, all buffers, stack depths, registries',
  'Encode writes length and checksum fields while it runs, so the second visit of a shared object sees changed fields; no test shares objects.',
  ALL)
p('encode changes only what it must',
  'encode leaves every object that cannot be reached from the message alone, and in those that can be reached it changes no field but the length and checksum fields; lists keep their elements. Also if it throws, and also for object graphs with sharing and cycles.',
  'all object graphs, buffers, stack depths, registries',
  'A frame condition over all other objects of the program.',
  ALL)
p('decode builds objects of its own',
  'Decoding into a new object gives a message all of whose objects and lists are new and distinct, and leaves every existing object as it was. So two decoded messages never share anything, and changing one cannot change the other. Decoding into an existing message none of whose parts are shared works like on a tree and changes nothing else.',
  'all classes, all heaps, all bytes (also malformed), all stack depths, factories',
  'Aliasing between messages shows only when one of them is changed later.',
  ALL)
p('decoding into an object with shared parts',
  'One expects that decoding into a message gives what decoding into a copy of it gives. Not so if a list that is kept (because the received list is empty) contains the object that is decoded in place: NestedPacket.decode reuses subPacket, so the element of the old list changes too.',
  'one witness',
  'No test decodes into an object that was used before.',
  [SAMPLE+'NestedPacket.java: decode'])
p('messages that contain themselves',
  'Every message either stands for a finite tree or contains itself somewhere. In the second case (a RootPacket set as its own payload, say) encode never returns normally, and hashCode and toString never return, however large the stack; equals of two different such messages may not return either. In general each of them needs a stack frame per nested object.',
  'all well-typed object graphs, stack depths, buffers',
  'Unbounded stack depth.',
  ALL)
p('identity does not matter to equals, hashCode and toString',
  'equals, hashCode and toString of a message depend only on the tree of values it stands for, not on which of its parts are the same object. The shortcuts for identical references in equals change no answer. An object equals itself even if it contains itself.',
  'all object graphs, stack depths',
  'All pairs of graphs with the same unfolding.',
  [m+'*.java: equals, hashCode, toString' for m in (SAMPLE,RISK,SSE,SZSE,BJSE)])
p('what decode changes',
  'decode changes no list that existed before, keeps the class and field names of every object, changes no object that cannot be reached from the message decoded into, and afterwards the message refers only to objects it could reach before and to new ones. So any other message that has nothing in common with it is unaffected. Also if it throws, and for any sharing and any cycles.',
  'all object graphs (well-typed or not), bytes, stack depths, factories',
  'A frame condition over all other objects of the program.',
  ALL)
p('the old contents of an object do not influence reading',
  'Whatever a message contains before decode (null, filled, shared, containing itself), decode ends the same way and reads the same number of bytes as with a new object. It throws only IndexOutOfBoundsException, IllegalArgumentException or StackOverflowError, and with the initial factories four frames are enough even for a message that contains itself. decode and encode keep every field within its declared type; encode throws only NullPointerException, IndexOutOfBoundsException or StackOverflowError.',
  'all well-typed object graphs, bytes, stack depths, registries, factories that create library messages',
  'All previous states of the object, cyclic ones included.',
  ALL)
p('a successful decode leaves a tree',
  'After decode has returned normally the message contains no cycle, even if it did before: it stands for a finite tree, so encode, equals, hashCode and toString of it can return. After a failed decode a cycle may remain.',
  'all well-typed object graphs, bytes, stack depths, factories',
  'Needs cyclic inputs.',
  ALL)
p("the checksum registry under concurrent use",
  "Let any number of threads each make any sequence of registry, removeChecksumService, clearAllChecksumService and getChecksumService calls, interleaved in any way, where each HashMap call is one atomic step and registry is two (containsKey, then put). (a) For a name that no other thread registers or removes, and if no other thread clears the registry, a thread gets exactly the answers it would get alone. (b) A service returned for a name was there at the start, or was registered under that very name by a call that returned true. (c) If nobody removes the name, then once a registration of it has been answered or a service has been found under it, every later query by any thread finds a service and every registration begun later returns false. Not guaranteed: two consecutive queries of one thread may return different services, and a thread whose registration returned true may then find another's service, although nothing is ever removed.",
  "all numbers of threads, all call sequences, all interleavings, all initial registries, all names and services",
  "interleavings are unbounded and not under a test's control",
  ["codec/src/main/java/com/finproto/codec/ChecksumServiceFactory.java:6-40"])
p("SseBinary.BodyMessageFactory under concurrent use",
  "Let any number of threads each make any sequence of register, remove, create and getMsgType calls, interleaved in any way, where each HashMap call is one atomic step and register is two (bodyMap, then reverseMap). (a) For a message type no other thread registers or removes, register, remove and create answer as if the thread were alone; (b) likewise getMsgType for a class no other thread registers. (c) If nobody removes type t, then once any thread was given t by getMsgType, has registered it or has created a body of it, every later create(t) by any thread succeeds (this depends on the order of the two puts). Not guaranteed: a body may be created while getMsgType of its class is still null, and four simultaneous registrations can leave maps that no sequential order of them leaves (getMsgType(A)=1, create(1) makes a B, getMsgType(B)=2, create(2) makes an A).",
  "all numbers of threads, all call sequences, all interleavings",
  "interleavings are unbounded and not under a test's control",
  ["sse-bin/src/main/java/com/finproto/sse/bin/messages/SseBinary.java:129-225"])

p("encode called by several threads at the same time",
  "Let any number of threads call encode at the same time, each with its own buffer, on any messages (possibly several on the same message, or one on a message that is part of another's), interleaved statement by statement in any way. Let no object below the encoded messages have a length or checksum field, and let threads that encode the same message with a checksum some service computes have equal unread bytes in their buffers. Then every thread ends exactly as it would alone (same exception or none) with exactly the same bytes written; after a normal end the getters of its message answer as after encoding it alone; and messages nobody encodes are unchanged. Every thread ends after a number of its own turns that does not depend on the schedule (for any messages whatever). Not guaranteed without the condition on buffers: two threads that encode one RootPacket into buffers with different unread bytes may write each other's checksum, because encode keeps it in the field of the shared message between computing and writing it.",
  "all object graphs (cyclic and shared ones too), numbers of threads, interleavings, buffers, stack depths, registries",
  "interleavings are unbounded and not under a test's control",
  ALL)

p("every field has its own bytes",
  "What encode writes for a message is one piece of bytes per field, in declaration order. Call setF(x) on a message and encode it again into the same buffer: every piece other than that of f is the same as before, except the checksum (if a service computes it) and the length field directly before f, whose sizes stay the same. A field behind fixed-width fields starts at the same offset in every message of the class (left-padded strings non-empty). Conversely, decode of two buffers whose unread bytes differ only where such a fixed-width field is ends the same way, having consumed the same number of bytes, and all getters but getF agree, whatever the bytes are - unless f selects the class of the body.",
  "all 182 message classes, all messages, fields, values, buffers; for the last part all byte contents",
  "Quantifies over all pairs of messages that differ in one field and over all corruptions.",
  ALL)
p("what is set arrives",
  "Call setF(x) on a message, encode it, decode the bytes into a new message: getF of the new message returns x, and every other getter returns what it returned on the original. Numbers and non-empty strings are exactly equal, anything else up to null / empty string / empty list and the length and checksum fields inside. (f not itself a length or checksum; message in canonical form, as for the round trip.)",
  "all 182 message classes, all messages, fields, values, buffers, registries, factories",
  "Quantifies over all fields and values of all classes.",
  ALL)

p("bodies of classes the library does not contain",
  "Let the body of a message be an object of any class a user wrote whose encode, when it returns, has appended some bytes to the buffer (nothing else is asked of it). encode of the message calls it once, after the header and a blank length field have been written; if it returns, the message's bytes are header, length, the body's bytes, checksum, where the length field holds the number of the body's bytes and the checksum covers the unread bytes before it, and only the length, checksum and the body itself have changed; if it throws, encode throws the same exception, nothing is written after it, and length and checksum are unchanged; all other exceptions are NullPointerException because of a null header field, IndexOutOfBounds for a full buffer, StackOverflowError. decode of bytes whose header's tag is registered with a user's class makes a new object of it, calls its decode on the bytes after the length field, makes it the body, and reads the checksum where it stopped. If the class reads back what it wrote, decode of what encode wrote returns the same body, length and checksum, having read exactly those bytes. Messages made of library objects are encoded and decoded as if users had written nothing.",
  "all library classes with a body, all user classes, messages, buffers, registries, factories",
  "The classes of users are not known to the library's tests.",
  ALL)
p("checksum services the library does not contain",
  "Let the checksum be computed by any service a user wrote, which may throw, or read from or write to the buffer. encode calls it once, on the buffer with header, length and body written. If it throws, encode throws the same exception, the buffer is as the service left it and the checksum field is unchanged; if it returns, the low 32 bits of the result are in the checksum field and are written where the service left the buffer. A service that leaves the buffer alone gives a complete frame and nothing else. Not guaranteed otherwise: a service that reads the bytes it is given consumes the message.",
  "the three library classes with a computed checksum, all services, messages, bodies (null, of the library, of users), buffers",
  "The services of users are not known to the library's tests.",
  ["codec/src/main/java/com/finproto/codec/ChecksumService.java:5-31","codec/src/main/java/com/finproto/codec/ChecksumServiceFactory.java:6-40"])

p("the program that is verified is the text of the source files",
  "The text of each of the 188 Java files under src/main/java, split into tokens, is the token sequence of the syntax tree the theorems run (comments and white space aside); the program consists of the classes of these files and of nothing else, no class name occurs twice, and each of the 182 message classes of the model is one of its classes.",
  "all source files and classes",
  "No test relates a model to the text it is a model of.",
  ALL)
p("class initialisation",
  "Running all static initialisers, enum constants and singleton constructors of the Java text throws nothing, touches no buffer and no message, and leaves the checksum registry, the message factories and the reverse map of SSE as the initial state of the model says.",
  "all heaps and buffers at start-up",
  "The initialisers are 21 static blocks and several enums and singletons whose joint effect no test looks at.",
  ["codec/src/main/java/com/finproto/codec/ChecksumServiceFactory.java:6-40","sse-bin/src/main/java/com/finproto/sse/bin/messages/SseBinary.java:129-225"])
p("calls on registry and factories, run as Java",
  "Let a program make any sequence of registry, removeChecksumService, clearAllChecksumService, getChecksumService, create, register, remove, getMsgType and MessageType.fromValue calls after start-up. Run as the Java text they answer like calls on plain finite maps, one per factory: get after put finds the last service or supplier, registry does not replace, create of an unknown or null key throws IllegalArgumentException and of a known one makes a new object of the registered class with all fields at their defaults; no call changes an existing object or a buffer.",
  "all call sequences, names, keys (not null where the map is changed), services, library suppliers, starting states",
  "Histories are unbounded.",
  ["codec/src/main/java/com/finproto/codec/ChecksumServiceFactory.java:6-40","sse-bin/src/main/java/com/finproto/sse/bin/messages/SseBinary.java:129-225"])
p("the checksum services, run as Java",
  "calc of the four services, run as the Java text on any buffer, returns CRC-16/MODBUS, CRC-32/ISO-HDLC (as a signed int) and the byte sum modulo 256 of the readable bytes and leaves buffer, heap and statics as they were; verify(buffer, x) is true exactly if x is not null and equals what calc returns.",
  "all buffers up to 2^31-1 bytes, expected values",
  "All byte sequences.",
  ["codec/src/main/java/com/finproto/codec/Crc16ChecksumService.java","codec/src/main/java/com/finproto/codec/Crc32ChecksumService.java","codec/src/main/java/com/finproto/codec/SseBinChecksumService.java","codec/src/main/java/com/finproto/codec/SzseBinChecksumService.java"])
p("the bitmaps, run as Java",
  "For the four bitmap classes run as the Java text: a new map has no bit set; after any sequence of set and clear calls with positions in range get(q) is what the last call with position q said (byte, short; for int and long clear sets the bit like set does: true if any call had position q); no other object changes; write appends bitCount/8 bytes and read of them leaves exactly the bits that survive the 7-bit wire form (byte: all; short: all but positions 0 and 8; int, long: the lower groups shifted as stated in C09, C10).",
  "all call sequences, positions in range, contents, buffers with room",
  "Histories and contents are unbounded.",
  [B+x+'BitMap.java' for x in ('Byte','Short','Int','Long')])
p("encode, run as Java",
  "Run the Java text of encode on a well-typed message that stands for a finite tree. It returns exactly if no nested object that encode dereferences is null, the buffer has room and the stack suffices; then it has appended the wire form of the tree with lengths and checksum filled in. It throws only NullPointerException (the message is incomplete), IndexOutOfBoundsException (no room), StackOverflowError (nested too deeply). On any object graph, cyclic or not, it ends (never gets stuck), returns for no cyclic one, and changes no object that cannot be reached from the message.",
  "all 182 classes, all well-typed heaps, buffers, stack depths, registries, factories",
  "All messages and states of the program, on the text of the source files.",
  ALL)
p("decode, run as Java",
  "Run the Java text of decode on a well-typed message (any graph) and any bytes. It returns or throws IndexOutOfBoundsException, IllegalArgumentException or StackOverflowError, has consumed a prefix of the readable bytes and changed nothing else of the buffer, leaves all objects well-typed and unrelated ones unchanged, and if it returns the message stands for a finite tree of its class.",
  "all 182 classes, all well-typed heaps, bytes, stack depths, registries, factories with library suppliers",
  "All byte sequences, on the text of the source files.",
  ALL)
p("encode then decode, run as Java",
  "A complete message in canonical form, encoded by the Java text in one program and decoded by the Java text into a new object in another program with registrations of its own, which must know the body classes of the message, arrives as an equivalent tree (identical if it is in exact form), consuming exactly the bytes encode wrote and leaving all other objects of the receiver alone.",
  "all 182 classes, all heaps of both programs, buffers, following bytes",
  "All messages, on the text of the source files.",
  ALL)
p("equals, hashCode, toString, getters and setters, run as Java",
  "Run as the Java text on messages that stand for finite trees: equals is true exactly if the trees are equal up to the bits of NaN, and false for null; hashCode and toString are the stated functions of the tree and change nothing; StackOverflowError only for too deep nesting (or, for hashCode, field-less objects); a getter returns the field, a setter changes that field of that object and nothing else; a decoded copy equals the original, both ways round, with the same hashCode.",
  "all 182 classes, all well-typed heaps, fields, values, stack depths",
  "All pairs of messages, on the text of the source files.",
  ALL)
p("programs that use the library do not go wrong",
  "After class initialisation a program makes any sequence of calls that javac accepts: new objects and lists, filling lists, getters, setters, casts, encode and decode with any buffers and bytes, equals, hashCode, toString, checksum services, registry and factories. Every call returns a value of its declared type or throws NullPointerException, IndexOutOfBoundsException, IllegalArgumentException or StackOverflowError, as listed for each kind of call (encode never IllegalArgumentException, decode never NullPointerException on an object, the services and class creation nothing). Afterwards every variable, field and list element holds a value of its declared type, the buffers are intact, and the preconditions of C77 to C80 hold.",
  "all programs (finite call sequences with any objects, sharing and cycles), all stack depths per call",
  "Unboundedly many programs and object graphs.",
  ALL)
p("copies made by a program",
  "Whatever a program has done before: a complete message in canonical exact form whose parts are shared with nothing, encoded into an empty buffer with room and decoded into a new object, equals the copy and the copy equals it.",
  "all preceding call sequences, all 182 classes, messages, buffers",
  "All histories of the program.",
  ALL)

p("the text of a file has one reading",
  "Each of the 188 source files has exactly one tree of the Java grammar (precedence, casts, dangling else, declarations versus expressions), and a deterministic parser finds it: it is the tree that the statements about the Java text run.",
  "all trees of the part of Java the files are written in; all 188 files",
  "Unambiguity is a statement about all trees.",
  ALL)

p("threads with messages of their own",
  "Let any number of threads run at the same time, interleaved statement by statement in any way; each has a buffer and calls encode and decode on messages, one call after the other, until one throws. Let no object or list belong to the messages of two threads. Then every thread ends exactly as it would alone (same exception or none, same buffer contents and indices), and its messages are then the same graphs of objects as alone: same classes, same values, same sharing, so the getters answer the same however deep one goes. At no moment do messages of two threads have an object or list in common, and objects that belong to no thread never change. Every thread ends after a number of its own turns that does not depend on the schedule. Not guaranteed if two threads use the same message: of two threads that decode into one RootPacket, the first may create the payload the second has announced and throw, though alone neither throws.",
  "all object graphs (cyclic and shared ones too), numbers of threads, call sequences, interleavings, buffers and their contents, stack depths, registries",
  "interleavings are unbounded and not under a test's control",
  ALL)

p("streams of messages, run as Java",
  "One program encodes any number of complete messages in canonical form, which have no object in common, one after the other into a buffer. Another program with objects and registrations of its own finds these bytes, followed by anything, makes a new object of the class of each and decodes them one after the other. Both programs run the Java text. The receiver gets an equivalent message for each (identical in exact form), in order, and what follows stays unread; what it had before is unchanged, the received messages consist of new objects and no two have an object in common. The sender's other objects are unchanged.",
  "all 182 classes, all sequences of messages of any length, all heaps and registrations of both programs, buffers, following bytes",
  "All sequences of messages, on the text of the source files.",
  ALL)

p("a receiver that verifies the checksum",
  "decode does not check checksums (C29), so a receiver has to: it decodes a frame into a new object and accepts it if all bytes were read and verify(bytes without the last four, frame.getChecksum()) of the library's service is true. With the service registered at the sender, and nothing unread in its buffer, RootPacket, SseBinary and SzseBinary frames are accepted as sent and arrive as an equivalent message. A RootPacket altered in one burst of at most 32 bits or in two bits, and an SSE or SZSE frame altered in one byte, is never accepted, wherever the alteration is (tag, length, body, checksum). Two bytes of an SSE frame that change places go unnoticed (refuted). The receiver's program ends with an answer or one of decode's exceptions, whatever bytes arrive.",
  "all frames, object graphs and registrations of both sides, all bytes and alterations of the kind named, run on the Java text",
  "All messages and all alterations.",
  ALL)

p("a call has one outcome, and the stack matters only where it overflows",
  "Running a method of the Java text in a given state has at most one outcome (result or exception, and state), whatever bounds the interpreter is given, and from some bound on the interpreter finds it. A call that ends without StackOverflowError on a stack of d frames ends in the same way on every larger stack; one that overflows on d frames overflows on every smaller stack. So what C74 to C86 say about runs is not an effect of how long they are allowed to take.",
  "all programs of the modelled part of Java (the library among them), all calls, states and stack sizes",
  "All programs, states and stack sizes.",
  ALL)

p("the library inside a larger program",
  "Put the library's classes into a program with any other classes, whose objects may lie anywhere in the heap, before, between and after the library's, and which may have static fields of their own. Then every call of a library method, static method, singleton or constructor ends there as it ends in the library alone (same exception or an equal result, same buffer), and the library's objects afterwards are the same graph at other addresses. Objects that are not the library's, static fields that are not the library's and the caller's locals are unchanged, and the only new objects are those the call made in the library alone. Class initialisation starts the library in the state of C73 whatever else is there. Between calls the rest of the program may do anything to its own objects and static fields. In particular encode in the larger program appends the wire form or throws as C77 says.",
  "all programs with classes in other packages, all their heaps and static fields, all calls, arguments and states of the library, all stack sizes",
  "The programs a library is used in are not known to its tests.",
  ALL)

p("what encode and decode leave in memory is bounded by the bytes read",
  "decode, run from the Java text on any bytes into any object, creates at most one message object or list for every byte it reads, plus one if it throws; the elements of all lists grow by at most one for every byte read and the chars of all strings held in fields and lists by at most one for every byte read. encode creates no message object, list, element or string that outlives it. So no count or length in the received bytes makes decode keep more than the bytes that were really there. Not counted: strings, boxes and byte arrays that die inside the call, and the spare capacity of an ArrayList.",
  "all heaps of well-typed objects (shared and cyclic ones included), all buffers, all stack sizes",
  "Hostile counts and lengths, in every combination of nested lists and whatever was in the object before.",
  ALL)

p("a user's class as body of a message, run as Java",
  "A program has classes of its own that implement BinaryCodec, with number and string fields and an encode method in Java that, as its contract says, appends bytes to the buffer or throws and leaves objects and static fields alone; nothing else is asked of its text. Put an object of such a class into the body field of any message of the library and call the message's encode, as Java text inside that program: encode writes the message's own fields, calls the user's method with the buffer at that point, writes the true number of its bytes into the length field and the checksum of everything unread, the user's bytes included, into the checksum field; if the user's method throws, encode throws the same exception and has written no more. User objects, lists, other messages and static fields stay as they were. On any graph of such objects encode comes to an end with a result or an exception.",
  "all programs that contain the library, all user classes that keep the contract, all messages with a body field, buffers, registrations and stack sizes",
  "Tests know only the body classes of the library.",
  ALL)

p("a user's class registered with a factory: decode makes and fills its objects, run as Java",
  "A program registers a class of its own, with number and string fields and methods encode and decode in Java that keep their contract (decode changes only the object it is called on and the reader index), under a key of one of the library's factories: register returns, the factory has the class under that key, no other object, list or static field changes. SseBinary's register takes the class too, and getMsgType then answers the number for that class and for every other class what it answered before. From then on decode of a message whose type has that key creates an object of the user's class with default values, calls its decode on the bytes after the header and the length field, stores the object in the body field and reads the checksum from where the user's method left off; if the user's method throws, decode throws the same. Nothing but the object decoded into changes, and its parts afterwards were its own or are new. Decoding what encode wrote for a user's body gives a message with the same body, length and checksum and consumes exactly those bytes, provided the user's decode undoes the user's encode. On any graph of such objects decode ends, leaves every object well-typed and changes only objects that can be reached from the one it is called on.",
  "all programs that contain the library, all user classes that keep the contract, all messages with a body field, registrations, bytes and stack sizes",
  "Tests register only classes of the library.",
  ALL)

p("messages that come in pieces, run as Java",
  "One program encodes messages one after the other as in C85. The bytes, followed by anything, reach another program in pieces of any sizes, perhaps not all of them yet. With every piece it tries, as long as messages are due, to decode a new object from the bytes it has, in a buffer without spare capacity behind them; if decode throws IndexOutOfBoundsException it drops the object and waits for the next piece. Both programs run the Java text. No other exception is thrown; after each piece the receiver has got exactly the messages whose bytes have come completely, in order and equivalent to what was sent (identical in exact form), and holds exactly the remaining bytes; what it had before is unchanged and no two received messages have an object in common. With spare capacity behind the bytes (netty 4.1.100) it can take part of a message for the whole (refuted).",
  "all 182 classes, all sequences of messages, all ways to cut the bytes into pieces, all heaps and registrations of both programs",
  "Every way to cut a stream into pieces.",
  ALL)

p("classes initialised when they are first used",
  "Run the Java text as the JVM does, initialising a class only when an object of it is made, a static method called or a static field used (JLS 12.4.1). Any program that uses the library, choosing each call by what happened before and changing objects and buffers as it likes in between, then sees exactly what it sees if all classes were initialised at the start: the same answers, exceptions, objects and buffers. Initialising a class, at any time and in any state a program can reach, throws nothing and changes no object and no buffer; whatever the order in which classes are initialised, the static fields come out the same. In particular the first encode of a fresh JVM already writes the wire form with all length and checksum fields right.",
  "all programs, all calls of library methods, static methods, singletons and constructors, all orders of initialisation, all stack sizes",
  "The order in which tests touch the classes is one of very many.",
  ALL)

p("encode while other threads call setters of the message",
  "While a thread runs encode, other threads call setters of number and string fields (other than length and checksum; strings with a length prefix not with null) of the same objects, interleaved in any way, also between the test of a string and its use. encode ends, after a number of its own steps that does not depend on the setters. What it has then written, and how it ended, is what encode alone does for a message in which each such field has, at each place where its object occurs, some value the field held while encode ran: so the bytes are a whole frame, with the length of that body and the checksum of those bytes. Afterwards all fields have the values the setters gave them, except length and checksum of the message encoded. It is not guaranteed that the message ever had that content at one time (refuted); and setting a string with a length prefix, or the body, to null while encode runs can make encode throw NullPointerException although it does not with either content (refuted that it cannot).",
  "all messages without frames inside, all calls of such setters and values, all interleavings of statements",
  "Interleavings of encode and setters cannot be tested exhaustively.",
  ALL)

p("getters called while decode fills the message",
  "While a thread runs decode on a message that is not part of itself, other threads call getters of it. A getter gives what the field held before, or what it holds when decode has ended (returned or thrown); no field passes through other values. Fields are filled in the order of the wire: who has seen a field with a new value sees from then on the final values of that field and of all fields before it. If the last field is a number or a string, as the checksum of a frame, who has seen its new value sees every object and list as decode leaves them. A list that is seen only gets more elements, and no object changes its class. But who sees the new body does not always see its content, and who sees a new list does not always see all elements (refuted that they do).",
  "all 182 classes, all heaps, bytes, registrations and stack sizes, all times during decode",
  "The moments at which another thread can look are too many to test.",
  ALL)

p("a gateway that decodes frames and encodes them again, run as Java",
  "One program encodes frames of one kind (RootPacket, SseBinary, SzseBinary or RcBinary) one after the other into a buffer. A gateway with the same checksum services, but a heap and factories of its own, gets these bytes followed by an incomplete frame. It cuts them into frames by their length fields, in a buffer each makes a new object and decodes it, and encodes the object into its out-buffer, in which the same bytes are unread at the start as were in the sender's. Both programs run the Java text. There are as many frames as messages, nothing is thrown, and the gateway appends to its buffer exactly the bytes it got; what it had before is unchanged. Strings may be cut to the width of their field as long as the cut does not fall inside a character, and left-padded ones must not consist of pads only (C46).",
  "all sequences of frames, all heaps, buffers and factories of both programs, all ways to hold a frame in a buffer",
  "Tests decode single messages and compare objects, not what a second encode writes.",
  ALL)

p("what the bytes say about the messages, run as Java",
  "Two programs run the Java text, each with its heap, buffer, registry and factories, and each encodes a message of the same class. If what one call wrote begins with all that the other wrote, both wrote the same bytes, and the messages as encode left them are the same up to null and the empty string, exactly the same if both are in the form decode produces. A call that returns appended as many bytes as the layouts of the message and its parts say; for classes of fixed-width fields that is one number. In one program, two messages that share nothing and gave the same bytes are then equal by equals and have the same hash code.",
  "all classes, all messages whose strings fit their fields and whose bodies some reader knows, all heaps, buffers, registries and factories of both programs",
  "Tests encode one message per class and never compare the bytes of two.",
  ALL)

p("encode while other threads change the checksum registry",
  "While a thread runs encode on a message without frames inside, other threads register, remove, clear and query checksum services, interleaved in any way, also between the test and the put of registry. encode ends, after a number of its own steps that does not depend on the others. What it has then done to the buffer and to the message, and how it ended, is what encode alone does with one state of the registry, which there was at one of its steps. If no call of the other threads concerns the service that the class of the message asks for, it is what encode alone does with the registry at the start. The state seen need not be that at the start or at the end (refuted: a service registered and removed in between is used); and a frame inside a frame may see another state than the frame around it, so that no single state explains the bytes (refuted that one does).",
  "all classes, messages, buffers and stack sizes, all programs of the other threads and services, all interleavings",
  "Interleavings of encode and registrations cannot be tested exhaustively, and the existing tests use one thread.",
  ALL)

p("decode while other threads change the message factories",
  "While a thread runs decode, other threads register and remove message types in any of the 19 factories, interleaved in any way. decode ends, after a number of its own steps that depends on nothing but the size of the stack. If no factory ever creates messages that can contain, through their bodies, one of the class the factory belongs to, then what decode has done to the objects and the buffer, and how it ended, is what decode alone does with factories each of which is in a state it had at one of the steps of decode; a factory that nobody changes is as at the start. It need not be one moment for all factories (refuted: a Szse NewOrder frame is decoded although at every moment its message type or its extension was not registered); and if a RootPacket may be the payload of a RootPacket, two questions to one factory may get different answers that no single state of it gives (refuted that the condition is not needed).",
  "all classes, well-typed heaps, bytes, stack sizes and registrations, all interleavings",
  "Interleavings of decode and registrations cannot be tested exhaustively, and the existing tests use one thread.",
  ALL)

p("objects of classes derived from message classes",
  "Users may derive classes from the message classes, by name or anonymously (new SubPacket() {{ setFieldU32(1); }}), without overriding encode, decode, equals, hashCode or toString, put their objects into messages and register them with factories. encode then writes the same bytes, sets the same fields and ends in the same way as it does for objects of the library's classes with the same content, and decode reads the same values; neither changes the class of an object, and the objects decode makes are of the library's classes or of a class some factory creates. hashCode and toString are those of the library's class. equals is true for no more objects than it is for those of the library's classes, never for two objects of different classes, and for the same ones if no two of the classes in use come from one class. So a message with a part of a derived class is encoded and decoded without an error, yet not equal to what is decoded, though both have the same hashCode.",
  "all sets of derived classes, all heaps, messages, buffers, registrations, services and stack sizes",
  "The existing tests derive no classes, and there is no bound on the number of classes that users derive.",
  ALL)

p("messages as keys of hash maps",
  "A program puts, gets and removes entries of a java.util.HashMap whose keys are messages. As long as the content of the keys used does not change, every call returns what a map by content returns: the value of the latest put of a message with the same class and content (NaNs all the same) that has not been removed since; no two entries have the same content. encode does not disturb this for keys that have no part in common with the message encoded, or no part with a length or checksum field; and what is decoded from the bytes of a message finds the entry of that message, if it was put after encode. A frame that is put first and encoded then is not found again, neither by get nor by remove, and a second put adds a second entry for the same object. No call returns for a message that holds an object of a class without fields (EmptyPacket, Heartbeat, ...), however large the stack is.",
  "all sequences of calls, all heaps and messages, all values, all states of registry and factories",
  "Tests use no message as a key, and there is no bound on the number of calls and the size of the messages.",
  ALL)

if __name__=='__main__':
    out=os.path.join(os.path.dirname(os.path.abspath(__file__)),'..','properties.jsonl')
    with open(out,'w') as f:
        for x in P: f.write(json.dumps(x,ensure_ascii=False)+'\n')
    print(len(P))
