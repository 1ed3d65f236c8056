-Q theories Verif
theories/Model/Ast.v
theories/Model/BitMap.v
theories/Model/ByteBuf.v
theories/Model/Checksum.v
theories/Model/Codec.v
theories/Model/Concurrent.v
theories/Model/Crowd.v
theories/Model/DecodeThreads.v
theories/Model/EncodeThreads.v
theories/Model/Factory.v
theories/Model/FactoryRace.v
theories/Model/FactoryThreads.v
theories/Model/GenBjse.v
theories/Model/GenRisk.v
theories/Model/GenSample.v
theories/Model/GenSse.v
theories/Model/GenSzse.v
theories/Model/HashKeys.v
theories/Model/Heap.v
theories/Model/HeapOpen.v
theories/Model/Interp.v
theories/Model/JavaPrim.v
theories/Model/Library.v
theories/Model/Open.v
theories/Model/RegistryThreads.v
theories/Model/SetterThreads.v
theories/Model/Show.v
theories/Model/Subclass.v
theories/Model/Threads.v
theories/Model/Utf8.v
theories/Java/CodecTrees.v
theories/Java/FilesBjse.v
theories/Java/FilesRisk.v
theories/Java/FilesSample.v
theories/Java/FilesSse.v
theories/Java/FilesSzse.v
theories/Java/Init.v
theories/Java/Lazy.v
theories/Java/Lex.v
theories/Java/Parse.v
theories/Java/Program.v
theories/Java/Sem.v
theories/Java/Source.v
theories/Java/Sources.v
theories/Java/SrcBjse.v
theories/Java/SrcCodec.v
theories/Java/SrcRisk.v
theories/Java/SrcSample.v
theories/Java/SrcSse.v
theories/Java/SrcSzse.v
theories/Java/Syntax.v
theories/Java/Text.v
theories/Spec/Access.v
theories/Spec/Allocation.v
theories/Spec/Apart.v
theories/Spec/Buffers.v
theories/Spec/Bytes.v
theories/Spec/Client.v
theories/Spec/Crc.v
theories/Spec/Crowds.v
theories/Spec/Equality.v
theories/Spec/Flat.v
theories/Spec/Framing.v
theories/Spec/JavaArrival.v
theories/Spec/JavaGateway.v
theories/Spec/JavaLazy.v
theories/Spec/JavaOutcome.v
theories/Spec/JavaRun.v
theories/Spec/JavaState.v
theories/Spec/JavaStream.v
theories/Spec/JavaUser.v
theories/Spec/JavaWorld.v
theories/Spec/Keys.v
theories/Spec/LayoutBjse.v
theories/Spec/LayoutRisk.v
theories/Spec/LayoutSample.v
theories/Spec/LayoutSse.v
theories/Spec/LayoutSzse.v
theories/Spec/Layouts.v
theories/Spec/Locality.v
theories/Spec/Malformed.v
theories/Spec/Maps.v
theories/Spec/Open.v
theories/Spec/Order.v
theories/Spec/Overlay.v
theories/Spec/Plain.v
theories/Spec/Private.v
theories/Spec/PrivateTag.v
theories/Spec/Reading.v
theories/Spec/Recast.v
theories/Spec/Receiver.v
theories/Spec/Registries.v
theories/Spec/Registry.v
theories/Spec/Resend.v
theories/Spec/Seen.v
theories/Spec/Sharing.v
theories/Spec/Sizes.v
theories/Spec/Streams.v
theories/Spec/Tags.v
theories/Spec/Text.v
theories/Spec/Together.v
theories/Spec/Torn.v
theories/Spec/Wire.v
theories/Spec/Worlds.v
theories/Proofs/BitMapFacts.v
theories/Proofs/BufFacts.v
theories/Proofs/BufferKept.v
theories/Proofs/BytesFacts.v
theories/Proofs/ClientFacts.v
theories/Proofs/CodecFacts.v
theories/Proofs/CodecMore.v
theories/Proofs/Conform.v
theories/Proofs/CrcFacts.v
theories/Proofs/CrcOrder.v
theories/Proofs/CrowdFacts.v
theories/Proofs/Decimals.v
theories/Proofs/DecodeEnds.v
theories/Proofs/DecodeFacts.v
theories/Proofs/DecodeInv.v
theories/Proofs/DecodeRel.v
theories/Proofs/DecodeThreadFacts.v
theories/Proofs/Depth.v
theories/Proofs/EncodeEnds.v
theories/Proofs/EncodeFacts.v
theories/Proofs/EncodeRace.v
theories/Proofs/EncodeSteps.v
theories/Proofs/EncodeThreadFacts.v
theories/Proofs/EqualFacts.v
theories/Proofs/FactoryRaceFacts.v
theories/Proofs/FactoryThreadFacts.v
theories/Proofs/FillFacts.v
theories/Proofs/FrameDecode.v
theories/Proofs/FrameFacts.v
theories/Proofs/FramingFacts.v
theories/Proofs/HashFacts.v
theories/Proofs/HeapBuffer.v
theories/Proofs/HeapCheck.v
theories/Proofs/HeapCycle.v
theories/Proofs/HeapDecode.v
theories/Proofs/HeapEncTypes.v
theories/Proofs/HeapEq.v
theories/Proofs/HeapFacts.v
theories/Proofs/HeapFrame.v
theories/Proofs/HeapLists.v
theories/Proofs/HeapOpenFacts.v
theories/Proofs/HeapOwn.v
theories/Proofs/HeapReach.v
theories/Proofs/HeapResults.v
theories/Proofs/HeapSize.v
theories/Proofs/HeapTypes.v
theories/Proofs/HeapUntangle.v
theories/Proofs/JavaBitmaps.v
theories/Proofs/JavaClasses.v
theories/Proofs/JavaDecode.v
theories/Proofs/JavaEmbed.v
theories/Proofs/JavaEmbedInit.v
theories/Proofs/JavaEncode.v
theories/Proofs/JavaFactories.v
theories/Proofs/JavaLazy.v
theories/Proofs/JavaLazyInit.v
theories/Proofs/JavaLazySim.v
theories/Proofs/JavaLibrary.v
theories/Proofs/JavaMono.v
theories/Proofs/JavaNames.v
theories/Proofs/JavaRegistry.v
theories/Proofs/JavaSem.v
theories/Proofs/JavaServices.v
theories/Proofs/JavaSseRegister.v
theories/Proofs/JavaStart.v
theories/Proofs/JavaState.v
theories/Proofs/JavaText.v
theories/Proofs/JavaTextBjse.v
theories/Proofs/JavaTextCodec.v
theories/Proofs/JavaTextRisk.v
theories/Proofs/JavaTextSample.v
theories/Proofs/JavaTextSse.v
theories/Proofs/JavaTextSzse.v
theories/Proofs/JavaUser.v
theories/Proofs/JavaValues.v
theories/Proofs/KindFacts.v
theories/Proofs/LocalFacts.v
theories/Proofs/Lockstep.v
theories/Proofs/MalformedFacts.v
theories/Proofs/Messages.v
theories/Proofs/OpenFacts.v
theories/Proofs/OpenFrame.v
theories/Proofs/OpenLibrary.v
theories/Proofs/OverlayFacts.v
theories/Proofs/Oversize.v
theories/Proofs/ParseFacts.v
theories/Proofs/PieceFacts.v
theories/Proofs/PlainFacts.v
theories/Proofs/PrefixDecode.v
theories/Proofs/RegistryFacts.v
theories/Proofs/RegistryRace.v
theories/Proofs/ResendFacts.v
theories/Proofs/RoundTrip.v
theories/Proofs/SameBytes.v
theories/Proofs/SeenFacts.v
theories/Proofs/SizeFacts.v
theories/Proofs/SubclassFacts.v
theories/Proofs/TableFacts.v
theories/Proofs/TextFacts.v
theories/Proofs/ThreadFacts.v
theories/Proofs/TornFacts.v
theories/Proofs/Twin.v
theories/Proofs/Utf8Facts.v
theories/Proofs/Utf8More.v
theories/Proofs/ValInd.v
theories/Proofs/WorkerFacts.v
theories/Props/AllocationProps.v
theories/Props/ArbitraryProps.v
theories/Props/BitMapProps.v
theories/Props/ChecksumProps.v
theories/Props/ClientProps.v
theories/Props/CodecProps.v
theories/Props/CrowdProps.v
theories/Props/DecodeProps.v
theories/Props/EncodeThreadProps.v
theories/Props/EndingProps.v
theories/Props/EqualProps.v
theories/Props/FactoryRaceProps.v
theories/Props/FactoryThreadProps.v
theories/Props/FieldProps.v
theories/Props/FrameProps.v
theories/Props/FramingProps.v
theories/Props/HeapMoreProps.v
theories/Props/HeapProps.v
theories/Props/IntegrityProps.v
theories/Props/JavaArrivalProps.v
theories/Props/JavaGatewayProps.v
theories/Props/JavaLazyProps.v
theories/Props/JavaMessageProps.v
theories/Props/JavaOutcomeProps.v
theories/Props/JavaStaticProps.v
theories/Props/JavaStreamProps.v
theories/Props/JavaUserDecodeProps.v
theories/Props/JavaUserProps.v
theories/Props/JavaWireProps.v
theories/Props/JavaWorldProps.v
theories/Props/KeyProps.v
theories/Props/LocalProps.v
theories/Props/MessageProps.v
theories/Props/MixedProps.v
theories/Props/OpenProps.v
theories/Props/OrderProps.v
theories/Props/OversizeProps.v
theories/Props/ParseProps.v
theories/Props/RegistryProps.v
theories/Props/RegistryThreadProps.v
theories/Props/ResendProps.v
theories/Props/ReuseProps.v
theories/Props/Samples.v
theories/Props/SeenProps.v
theories/Props/SizeProps.v
theories/Props/SubclassProps.v
theories/Props/TextProps.v
theories/Props/ThreadProps.v
theories/Props/TornProps.v
theories/Props/WorkerProps.v
theories/Tests/Script.v
theories/Tests/TestsBjse.v
theories/Tests/TestsCodec.v
theories/Tests/TestsLex.v
theories/Tests/TestsRisk.v
theories/Tests/TestsSample.v
theories/Tests/TestsSse.v
theories/Tests/TestsSzse.v
