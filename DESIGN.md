# Formal model of fin-proto-java

Prover: Coq 8.16.1, standard library only. No axioms of our own; every property theorem is meant to be
`Closed under the global context` (each theorem in `theories/Props/` is followed by `Print Assumptions`).

## 1. Layers

| directory | content |
|---|---|
| `theories/Model/` | executable model of the Java code, function by function, with file:line citations |
| `theories/Model/Gen*.v` | the 182 message classes and their factories, translated from the Java text by `tools/translate.py` |
| `theories/Java/` | the Java text of all files under src/main/java, verbatim; lexer, syntax trees, an interpreter for them |
| `theories/Spec/` | what the properties are stated with: wire formats, layouts, abstract maps, bit-serial CRCs. Independent of the model's helpers |
| `theories/Proofs/` | lemmas |
| `theories/Props/` | only property theorems (`exact lemma`), hypotheses-are-satisfiable examples, `Print Assumptions` |
| `theories/Tests/` | the project's own unit tests, run in the model: evidence that the model is the code, not proofs |

### Model files

* `JavaPrim.v` – Java integers as signed `Z` with explicit wrap, shifts with the shift distance masked (JLS 15.19),
  big/little endian byte forms.
* `Utf8.v` – `String` = list of UTF-16 code units. `String.getBytes(UTF_8)` and the JDK 11 decoder
  (`StringCoding.decodeUTF8_0`, malformed input replaced by U+FFFD).
* `ByteBuf.v` – netty 4.1 `ByteBuf`: backing array, reader/writer index, max capacity, an arbitrary growth policy
  (how much spare capacity, and what garbage is in it, is universally quantified). `readCharSequence` of
  4.1.100 checks capacity instead of the writer index; a per-buffer flag selects either behaviour so that
  theorems cover both.
* `Codec.v` – `BinaryCodec.java`: `writeFixedString`, `padChar`, `trimByChar`, `readFixedString`.
* `Checksum.v` – the four checksum services, `verify`, and the registry `ChecksumServiceFactory`.
* `BitMap.v` – the four bitmaps.
* `Ast.v` – syntax of the statement forms that occur in the generated message classes (a finite grammar; the
  translator stops on anything else).
* `Interp.v` – semantics of these statements: `encode`/`decode`/`equals`/`hashCode` of objects. Exceptions leave the
  object and buffer as they were at the throw (Java has no rollback). Java stack depth is an explicit
  argument; exhausted depth is `StackOverflowError`.
* `Show.v` – `toString`, getters and setters; `Float.toString` and `Double.toString` are arbitrary functions.
* `Heap.v` – the same methods (encode, decode, equals, hashCode, toString) on objects and lists in a heap: sharing, cycles, `==`.
* `Factory.v` – message factories, `MessageType` of SSE.
* `Concurrent.v` – threads with one registration each in `ChecksumServiceFactory`; `Threads.v` – threads with any number of calls there;
  `FactoryThreads.v` – the same for `SseBinary.BodyMessageFactory`, whose `register` changes two maps one after the other;
  `EncodeThreads.v` – threads that call `encode` on messages of one heap, one statement at a time; `SetterThreads.v` – with setters in between; `RegistryThreads.v` – with calls of ChecksumServiceFactory in between; `FactoryRace.v` – `decode` with calls of register and remove in between;
  `DecodeThreads.v` – the same with calls of `encode` and `decode` one after the other.
* `HeapOpen.v` – `Heap.v`'s encode and decode where users' objects may be in the heap.
* `HashKeys.v` – a HashMap of the program with messages as keys.
* `Crowd.v` – threads with messages of their own, and others that change the checksum registry and the factories.
* `Subclass.v` – classes that users derive from message classes: inherited methods, and the factory of the superclass.
* `Open.v` – `encode` and `decode` together with bodies and checksum services that users of the library wrote: arbitrary functions.
* `GenSample.v … GenBjse.v` – the classes.

### The Java text itself

The second, independent account of the code. `Src*.v` hold the 188 files of /repo (src/main/java) byte for byte (`tools/mksrc.py` copies them,
it does not interpret them). `Lex.v` splits them into tokens, `Syntax.v` has the trees and the tokens a tree stands for. C72: the tokens of each
text are those of its tree; C83: no other tree has these tokens (`Parse.v`). `Sem.v` and `Init.v` run any such tree: a small Java interpreter that knows nothing of messages. C73–C82 are about
running these trees; they are proved by showing that the trees do what the model of `theories/Model/` does, so that C72–C82 also check the model and the
translator: a wrong template in `tools/translate.py` makes C72 or the proofs below C77–C82 fail.

* `Lex.v` – JLS 3, as far as it occurs. `Syntax.v` – JLS 19; `wf_expr` says operators nest as JLS 15 (precedence, left associativity) has it.
* `Source.v` – builds the tree of a message class from its definition in `Gen*.v`; `Files*.v` list the files; `CodecTrees.v` – the trees of the codec module.
* `Program.v` – all classes by name. `Sem.v` – expressions, statements, calls; `Init.v` – class initialisation. `Lazy.v` – the same interpreter with classes initialised when first used.
* What `Sem.v` simplifies is in its header. Further: the result of a method is not converted to its declared return type (in /repo all agree);
  names are Coq strings, i.e. one byte per character; all classes are initialised before anything else runs (C93 proves that this is no difference);
  `k`, the bound for loop iterations and non-virtual calls, is any number of at least 2^31+4 (`enough`) – such runs do not end for lack of it.

### The translator

`tools/translate.py` is part of the trusted base as far as "the model is the code" is concerned. It is strict: each
statement of every `encode`, `decode`, `equals`, `hashCode`, `toString`, getter, setter, factory and static
initialiser must match one of its templates in full, otherwise it stops. Each generated definition cites its
file and line ranges. The wire layouts the theorems speak about (`Spec/Layout*.v`) are a second output of the same
reading, one line per field; the tables of tags (`Spec/Tags.v`) are not: `tools/mktags.py` reads the register and put calls by itself,
and C45_dispatch and C21_values say that the model's factories hold exactly those. `tools/mutate.py` changes the Java text, regenerates only the model and checks that the
theorems then fail.

### The project's tests in the model

All 190 unit tests of /repo hold in the model: the 174 message tests are transcribed by `tools/testgen.py` (as strict as the
translator) into scripts of constructor, setter, encode, decode and assertEquals calls, the 16 codec tests by hand.

## 2. What is not modelled

* Concrete netty buffer classes: reference counts, thread safety, read-only, composite buffers, `maxFastWritableBytes`.
  Modelled is the documented contract of the calls used (`writeX`, `setX`, `readX`, `readCharSequence`, `getUnsignedByte`,
  `writerIndex`, `readerIndex`), with Netty's default bounds checks on.
* Object identity in `Interp.v`: there an object is a tree of values. `Heap.v` models the same methods on references, with sharing and
  cycles; C56–C64 say for which object graphs the two agree. Decoding into an object with shared parts is the exception (C59).
  Threads (`EncodeThreads.v`, `DecodeThreads.v`): a statement is one atomic step that all threads see. The Java memory model
  is not modelled. Setters of number and string fields called while another thread encodes: C94; about setters of bodies and other objects at that time
  there is only a refutation, setters of lists at that time (whose field a statement of `encode` reads many times) are not modelled.
  About several threads that use one message there are theorems for `encode` (C67, C94) and for getters during one `decode` (C95).
  What other threads do to the registries while one thread encodes or decodes: C98, C99 (one such thread), C102 (several, with messages of their own); C67 and C84 take the registries as fixed.
* `HashMap` under concurrent use: a `HashMap` call is one atomic step that all threads see, which `HashMap` itself does not promise.
* In `Interp.v` all objects are of library classes and a checksum service is an arbitrary function of the readable bytes. `Open.v` adds
  bodies of classes users write and services that throw or touch the buffer, as arbitrary functions of the object's own fields and the buffer;
  C70 and C71 say what carries over. Not modelled: user code that changes the message it is the body of, or other messages; subclasses of library classes that override encode, decode, equals, hashCode or toString (C100 has those that do not).
* Out-of-memory. Java stack depth is modelled as a number of nested calls, not bytes.
* Java's static typing: theorems quantify over well-typed objects (`typed`), the ones javac admits.
* The HashMap of a factory is modelled as a finite map; concurrent use only where C19 says so (atomic `containsKey`, `put`).

## 3. Properties: what is modelled, how it is proved

(model file → method)

* C01, C02, C03, C04, C05: `Codec.v` over `ByteBuf.v`, `Utf8.v` → direct, loops by induction; round trip through the decoder lemma
  `decode (encode s ++ t) = s ++ decode t` for valid `s`.
* C06, C07: `BitMap.v` → bitwise reasoning with `Z.testbit`; histories by induction on the operation list. C07 is a violation: exact statement of what
  the code does plus `_refuted` for the expected claim.
* C08–C11: wire form of bitmaps; C09, C10 violated: exact round-trip map, characterisation of survivors, `_refuted`.
* C12: loops = sums modulo 256, for all byte lists; signed/unsigned char variants of the quoted C code.
* C13, C14: table-driven loop = bit-serial specification, by induction over bytes; table entries by sweeping 256 indices.
* C15: injectivity of the CRC step over windows (linear algebra done by the permutation property of the table's top byte).
* C16: residue; by linearity/shift argument, then instance for RootPacket frames.
* C17: immediate from the above. C18, C20: refinement of registry/factory to abstract map over arbitrary histories.
* C19: small-step interleaving model of `registry`; sequential claim proved, concurrent claim refuted by a schedule.
* C21, C45: finite tables, compared with `Spec/Tags.v`, decided by computation and lifted; post-registration claim refuted by witness history.
* C22–C26, C30, C34, C36–C39, C43, C46: generic theorems about the interpreter: if a class table conforms to a layout table
  (decidable check), then encode appends the wire form and decode inverts it. By induction on stack depth and on
  layouts; then the check is evaluated on the 182 generated classes.
* C27, C28, C29: frame classes, on top of C23, with an arbitrary checksum registry; refutations by witness.
* C31, C32, C33: decode on arbitrary bytes: invariant of the interpreter.
* C35: counting argument on the length prefix. C40, C41: `equals`/`hashCode` interpreter, induction on values; refutation for field-less classes.
* C42: decidable check over all statements of the generated classes, plus its meaning on the wire (corollary of C23).
* C44: `Utf8.v` against `Spec/Bytes.v` (RFC 3629) and `Spec/Malformed.v` (what malformed bytes become) → induction on the length, and uniqueness.
* C47: `Codec.v` → violation, found while modelling `writeFixedString`: exact behaviour plus `_refuted`.
* C48: `BitMap.v` → bit-level lemmas for arbitrary positions; `_refuted` for "get is false outside".
* C49: `Checksum.v` against `Spec/Crc.v` → linearity of the register; periods: 32767 by running the register (kernel computation),
  2^32-1 by matrix powers of the register step and the factorisation 3*5*17*257*65537.
* C50, C51: two runs of the interpreter side by side (`Proofs/Lockstep.v`, `Proofs/Twin.v`); encode from C23. C52: induction on depth.
* C53: from C26, with a frame cutter (`Spec/Framing.v`) that knows only the position of the length field.
* C54: `Show.v` against `Spec/Text.v` → induction on depth and layouts; decimal notation against the standard library's printer; reading back by
  maximal munch over text without commas and brackets. C55: `Show.v`, table checks lifted to all objects.
* C56–C61: `Heap.v` against `Spec/Sharing.v` → simulations between heap and trees. Encode with sharing: fields that encode assigns are always
  assigned before they are read (checked on the 182 classes), so that it does not matter that an object may have been encoded before.
  Decode: separation argument (footprints). Cycles: depth bound by induction on the stack; a graph is a tree or has a cycle by pigeonhole.
* C62–C64: `Heap.v` against `Spec/Sharing.v` → C62 by sets of locations closed under references; C63 by typing invariants and by two runs of decode
  side by side that agree on the fields the next statements read; C64 by the declared types (no class leads back to itself except through the
  body, and the body is always created anew).
* C65, C66: `Threads.v` against `Spec/Private.v`, `FactoryThreads.v` against `Spec/PrivateTag.v` → invariants over steps of any schedule.
* C67: `EncodeThreads.v` against `Heap.hencode` → parts without computed fields never change, so their encoding is that of the initial heap; threads on
  the same message are compared statement by statement with the run each would have alone, which assigns the same numbers.
* C84: `DecodeThreads.v` against `Heap.hencode`/`hdecode` → each thread runs in step with a copy of itself that is alone; the addresses of the two are paired one to
  one, a step of another thread changes only cells outside the pairs, new cells make new pairs. Alone, the step machine is `hencode`/`hdecode` (induction over the run).
* C68, C69: `Interp.v` and the accessors of `Show.v` → the wire form field by field (from C23), two runs of decode that differ in one field; C69 from C22 and C55.
* C70, C71: `Open.v` against `Interp.v` → both agree on objects of library classes; the statements of a class with a body are split at the call of the body's
  method (header, length, body, checksum), the parts without the call run as in `Interp.v`. All classes with a body have that shape (`C70_every_body`).
* C72: the lexer run on each text (kernel computation), compared with the printed tree. C83: a recursive-descent parser undoes the printer on all proper trees
  (induction over trees); that the 188 trees are proper is computed. C73: the interpreter run on the initialisers.
* C74–C76: `Sem.v` on the trees of the codec module and of the factories, symbolically for arbitrary states → equal to `Checksum.v`, `Factory.v`, `BitMap.v`; then C12–C14, C06–C10 etc.
  `register` and `remove` with a null key are outside (create with null is in).
* C77–C80: `Sem.v` on `tree_of` of an arbitrary class of `Source.v`, by induction on statements and depth → equal to `Heap.v`; then C22–C26, C31–C33, C54–C64.
* C85: C77, C79 by induction over the messages; the frame of encode (C57, C77) keeps the other messages, footprints keep the received ones apart.
* C86: `Spec/Receiver.v` (the receiver's program) on `Sem.v` → the last four bytes decode reads are the checksum field (C31's relation), C75, C80 for the calls, then C15/C16/C49 on the
  byte strings; the two ends are connected by C22 and C27.
* C87: `Spec/JavaOutcome.v`; `Proofs/JavaMono.v`: every construct of `Sem.v` is monotone in the bound and in the frames (a result that is neither [Bad] nor an overflow stays), by
  induction on expressions and statements, for any program.
* C88: `Spec/JavaWorld.v` (the library's part of a larger state: a list of addresses); `Proofs/JavaEmbed.v`, `JavaEmbedInit.v`: every construct of `Sem.v` and `Init.v` keeps the
  relation, by induction on expressions and statements; the names in the trees mean the library's classes (`JavaNames.v`, computed on the trees). Other classes have other packages (not
  the default package, `java`, or the module names that stand for the library's packages). User classes as message bodies are C70's and C90's; suppliers of other classes in factories are C70's and C91's.
* C89: `Spec/Allocation.v` counts the heap; `Proofs/HeapSize.v` gives every decode a credit (bytes read minus cells made) and checks each class of the library
  (`class_pays`, computed on the definitions): a list is paid by its count, an element by its own bytes. Strings and boxes that die inside the call are not cells of the model.
* C90: `Model/HeapOpen.v` is `Heap.v`'s encode with users' methods; `Spec/JavaUser.v` says what a user's class must keep; `Proofs/HeapOpenFacts.v` relates it to `Open.v` (so C70 applies),
  `Proofs/JavaUser.v` shows that the Java text, inside a program that `extends` the library, computes it (`JavaEncode.v`'s theorem about statements, with the user's method as the call).
  Users' objects have number and string fields only. Not here: users' methods that change objects or static fields.
* C91: the same for decode: `hdecode_open` in `Model/HeapOpen.v`, `own_open` (`HeapOpenFacts.v`) and `java_decode_open` (`JavaUser.v`); `register` by C74's theorem carried into the larger
  program by C88 (a supplier `C::new` may be of any class). SseBinary's three-argument `register` and `getMsgType` with a user's class object are run directly in the larger program (`Proofs/JavaSseRegister.v`), as C88's relation keeps `Class<?>` arguments within the library.
* C92: C22 and C50 for one message (whole, or a proper part of it), then induction over the pieces and the messages; the receiver is the program `arrivals` of `Spec/JavaArrival.v`, which calls `create_new` and `invoke`.
* C93: `Java/Lazy.v` is the interpreter of `Sem.v` with a `touch` before every use of a class. The initialisers run on symbolic values of all other static fields (computed, `JavaLazyInit.v`); from that, touching a class keeps the relation `behind` (`JavaLazy.v`); induction over expressions, statements and calls (`JavaLazySim.v`). The library assigns no final field, which is computed from the text.
* C94: `Model/SetterThreads.v` interleaves the steps of `EncodeThreads.v`, with the test of a string or body and its use as steps of their own, with assignments of setters; `Spec/Torn.v` says what a tree of held values is. Backwards over the run (`TornFacts.v`): for what is left to do there is a tree of held values such that encode does the same with it; a statement that reads a field puts the value it has now into the tree, which is possible since (computed for all 182 classes) no later statement reads the field again; a test followed by a use does what one statement does at the time of the use (`fine_coarse`), since an empty string is written as zeros either way. Typing (`torn_typed`) composes it with C23 to the wire form.
* C95: the steps of `Model/DecodeThreads.v`, looked at after any number of them (`Spec/Seen.v`). Invariant (`Proofs/SeenFacts.v`): the bottom of the stack is a rest of the
  message's own statements, everything above works on its parts or on new objects, none of which is the message; so only the statements of that rest assign its fields,
  and a check over all classes says that they do so once each and in the order of the layout. The message must not be reachable from its own fields (also by a body that
  decode replaces anyway). As in all of `DecodeThreads.v` every thread sees every step at once: what the Java memory model allows without synchronisation is not covered.
* C96: `Spec/JavaGateway.v` is the gateway as a program on the Java text; C77 for the sender, C26 and C53 for the cutting, C46, C58 and C77 for each frame (the lists decode makes are no
  longer than an `int` counts by C89). A gateway whose out-buffer begins differently writes other checksums (C27), one with other services too; that is not in the theorem.
* C97: C22 for both programs with one reader, on a buffer that holds the longer of the two outputs: decode has one result. Sizes are C43's. For equals: C77's frame condition keeps the
  two messages apart, C80 says what equals and hashCode return.
* C98: `Model/RegistryThreads.v` interleaves `EncodeThreads.v` with `Threads.v`. The run has two parts (`RegistryRace.v`): until the message asks the registry a step is the same whatever is registered, since its parts, which have no checksum, never ask; and (computed for all 182 classes) nothing after the question asks again or calls encode of a part. So the outcome of what is left to do, as a function of the registry, is that of the start until the question and constant after it.
* C99: `Model/FactoryRace.v` interleaves the steps of `DecodeThreads.v` with register and remove. A step depends on the factories only if it asks one (`step_same`), so the run is a run alone with any world that has, for every factory asked, the state it was asked in (`follow`). That there is such a world needs that no factory is asked twice (`asked_once`): an invariant on the call stack says that at most one method on it can still ask, and that its class has a lower rank than all owners asked so far; it uses that (computed for all 182 classes) parts of static type and elements of lists never ask, and that nothing but reads follows the decode of a body. Termination (`DecodeEnds.v`): a weight computed from the classes and the stack size that every step decreases.
* C100: `Model/Subclass.v` adds classes with inherited methods to the environment of `Heap.v`. `Spec/Recast.v`: the same heap with every object as one of the library's class. Proved by a simulation, statement by statement (`SubclassFacts.v`); that no object changes its class, which the recast heap cannot show, is a second induction (`KindFacts.v`: the list of the kinds of the cells only grows). The class names written in decode are classes of the library (computed for all 182). `C100_decoded` is the round trip of C22 and C58, read through the recast heap. The refutation is a NestedPacket with an anonymous SubPacket, encoded and decoded.
* C101: `Model/HashKeys.v`: the entries of a HashMap with the hash each key had when it was put; the heap may be another one at every call. `Spec/Keys.v` says what a map by content answers, by the history of the calls. By C61 and C41 hash and equals of two messages depend on nothing but their content, so `hit` decides equality of contents; the entries then are a list with distinct contents. That encode leaves keys alone is C57; the decoded copy is C22, C56 and C58 together.
* C102: `Model/Crowd.v` interleaves `DecodeThreads.v`, `Threads.v` and `FactoryRace.v`. The proof of C84 goes through with another environment at every step (`CrowdFacts.v`: each thread is paired with a copy that has made its turns in the same environments); for a thread with one call that copy is a run of C98 or C99, with the turns that do not concern it left out. With several calls the schedule is cut where a call ends; what the next one needs is kept (no frame inside a message: C57; types: C63). Threads that mix encode and decode (`MixedProps.v`): what is encoded stays free of frames inside because a decode changes only what it can reach (C62), a decoded message is a tree (C64), and its new parts are of classes that decode names or factories create (`KindFacts.v`); that encode keeps the buffer usable for the next decode is in `BufferKept.v`. Assumed there: no factory creates frames, if some message is both decoded and encoded. The bound on turns (`C102_ends`) is for one call; with any number of calls a thread that always gets another turn ends (`EndingProps.v`: the schedule, which goes on for ever, is cut where a call ends, and each call has a bound by C98 and C99).
* C81, C82: `Spec/Client.v` (what javac accepts, and what the calls do) on `Sem.v` → an invariant of all reachable states: typed heap, every list has one element
  type, buffers well-formed; each call keeps it, by C73–C80. Not in it: bitmaps, user classes, threads, buffers whose reader index decode left behind the writer
  index (replaced by an empty one), raw types and other heap pollution.

## 4. Trusted base

* Coq 8.16.1 kernel (and `coqchk`), `vm_compute` for finite table checks.
* C72–C83: that `Lex.v`, the printer and `wf_expr` of `Syntax.v`, `proper` of `Parse.v`, and `Sem.v`/`Init.v` say what the JLS and the few JDK classes used mean, that `Src*.v` are the
  files of /repo (`python3 tools/mksrc.py` rewrites them identically). Not `tools/translate.py`, nor `Gen*.v`, nor the control flow of `Interp.v`/`Heap.v`.
* Other properties: that the model files say what the cited Java says (reading), that `tools/translate.py` transcribes correctly,
  that the JDK (decoder of 11 and later) / netty 4.1.100 behaviour recorded in `Utf8.v`, `ByteBuf.v` is right.

## 5. Assumptions

`Print Assumptions` answers "Closed under the global context" for every theorem of `theories/Props/`: no axiom is used.
`coqchk` lists the axioms of `Coq.ssr.ssrunder` (standard library) because that file gets loaded; no theorem depends on it.
