(* GENERATED by tools/mkcodec.py: the trees of the files of /repo/codec/src/main/java. *)
From Coq Require Import List ZArith String.
From Verif.Java Require Import Syntax SrcCodec.
Import ListNotations.
Open Scope Z_scope.
Open Scope string_scope.

(* codec/src/main/java/com/finproto/bitmap/BitMap.java *)
Definition class_BitMap : jclass :=
 (Class ["public"] "interface" "BitMap" [] [] []
  [ MMethod [] [] [] (Ty "void" []) "set" [((Ty "int" []), "pos")] None;
    MMethod [] [] [] (Ty "boolean" []) "get" [((Ty "int" []), "pos")] None;
    MMethod [] [] [] (Ty "void" []) "clear" [((Ty "int" []), "pos")] None;
    MMethod [] [] [] (Ty "void" []) "write" [((Ty "ByteBuf" []), "buf")] None;
    MMethod [] [] [] (Ty "void" []) "read" [((Ty "ByteBuf" []), "buf")] None;
    MMethod [] [] [] (Ty "int" []) "bitCount" [] None ]).
Definition file_BitMap : file := {| f_package := ["com"; "finproto"; "bitmap"]; f_imports := [["io"; "netty"; "buffer"; "ByteBuf"]]; f_class := class_BitMap |}.

(* codec/src/main/java/com/finproto/bitmap/ByteBitMap.java *)
Definition class_ByteBitMap : jclass :=
 (Class ["public"; "final"] "class" "ByteBitMap" [] [(Ty "BitMap" [])] []
  [ MField ["private"] (Ty "byte" []) "bits" None;
    MMethod [("Override", None)] ["public"] [] (Ty "void" []) "set" [((Ty "int" []), "pos")] (Some [(SLocal (Ty "int" []) "bit" (Some (EBin OShl (EInt false 1) (EParen (EBin OSub (EInt false 7) (EName "pos")))))); (SExpr (EAsg (AOp OBOr) (EName "bits") (EName "bit")))]);
    MMethod [("Override", None)] ["public"] [] (Ty "void" []) "clear" [((Ty "int" []), "pos")] (Some [(SLocal (Ty "int" []) "bit" (Some (EBin OShl (EInt false 1) (EParen (EBin OSub (EInt false 7) (EName "pos")))))); (SExpr (EAsg (AOp OBAnd) (EName "bits") (EInv (EName "bit"))))]);
    MMethod [("Override", None)] ["public"] [] (Ty "boolean" []) "get" [((Ty "int" []), "pos")] (Some [(SReturn (Some (EBin ONe (EParen (EBin OBAnd (EName "bits") (EParen (EBin OShl (EInt false 1) (EParen (EBin OSub (EInt false 7) (EName "pos"))))))) (EInt false 0))))]);
    MMethod [("Override", None)] ["public"] [] (Ty "void" []) "write" [((Ty "ByteBuf" []), "buf")] (Some [(SExpr (ECall (EName "buf") "writeByte" [(EName "bits")]))]);
    MMethod [("Override", None)] ["public"] [] (Ty "void" []) "read" [((Ty "ByteBuf" []), "buf")] (Some [(SExpr (EAsg ASet (EName "bits") (ECall (EName "buf") "readByte" [])))]);
    MMethod [("Override", None)] ["public"] [] (Ty "int" []) "bitCount" [] (Some [(SReturn (Some (EInt false 8)))]) ]).
Definition file_ByteBitMap : file := {| f_package := ["com"; "finproto"; "bitmap"]; f_imports := [["io"; "netty"; "buffer"; "ByteBuf"]]; f_class := class_ByteBitMap |}.

(* codec/src/main/java/com/finproto/bitmap/IntBitMap.java *)
Definition class_IntBitMap : jclass :=
 (Class ["public"; "final"] "class" "IntBitMap" [] [(Ty "BitMap" [])] []
  [ MField ["private"] (Ty "int" []) "bits" None;
    MMethod [("Override", None)] ["public"] [] (Ty "void" []) "set" [((Ty "int" []), "pos")] (Some [(SLocal (Ty "int" []) "bit" (Some (EBin OShl (EInt false 1) (EParen (EBin OSub (EInt false 31) (EName "pos")))))); (SExpr (EAsg (AOp OBOr) (EName "bits") (EName "bit")))]);
    MMethod [("Override", None)] ["public"] [] (Ty "void" []) "clear" [((Ty "int" []), "pos")] (Some [(SLocal (Ty "int" []) "bit" (Some (EBin OShl (EInt false 1) (EParen (EBin OSub (EInt false 31) (EName "pos")))))); (SExpr (EAsg (AOp OBOr) (EName "bits") (EName "bit")))]);
    MMethod [("Override", None)] ["public"] [] (Ty "boolean" []) "get" [((Ty "int" []), "pos")] (Some [(SReturn (Some (EBin ONe (EParen (EBin OBAnd (EName "bits") (EParen (EBin OShl (EInt false 1) (EParen (EBin OSub (EInt false 31) (EName "pos"))))))) (EInt false 0))))]);
    MMethod [("Override", None)] ["public"] [] (Ty "void" []) "write" [((Ty "ByteBuf" []), "buf")] (Some [(SFor (Ty "int" []) "i" (EInt false 0) (EBin OLt (EName "i") (EInt false 4)) (EInc (EName "i")) (SBlock [(SLocal (Ty "byte" []) "b" (Some (ECast (Ty "byte" []) (EParen (EBin OBAnd (EParen (EBin OShr (EName "bits") (EParen (EBin OSub (EInt false 24) (EBin OMul (EName "i") (EInt false 7)))))) (EInt true 127)))))); (SIf (EBin OLt (EName "i") (EInt false 3)) (SExpr (EAsg (AOp OBOr) (EName "b") (EInt true 128))) None); (SExpr (ECall (EName "buf") "writeByte" [(EName "b")]))]))]);
    MMethod [("Override", None)] ["public"] [] (Ty "void" []) "read" [((Ty "ByteBuf" []), "buf")] (Some [(SExpr (EAsg ASet (EName "bits") (EInt false 0))); (SLocal (Ty "boolean" []) "cont" None); (SLocal (Ty "int" []) "shift" (Some (EInt false 0))); (SDo (SBlock [(SLocal (Ty "byte" []) "b" (Some (ECall (EName "buf") "readByte" []))); (SExpr (EAsg ASet (EName "cont") (EBin ONe (EParen (EBin OBAnd (EName "b") (EInt true 128))) (EInt false 0)))); (SExpr (EAsg (AOp OBOr) (EName "bits") (EBin OShl (EParen (EBin OBAnd (EName "b") (EInt true 127))) (EName "shift")))); (SExpr (EAsg (AOp OAdd) (EName "shift") (EInt false 7)))]) (EName "cont"))]);
    MMethod [("Override", None)] ["public"] [] (Ty "int" []) "bitCount" [] (Some [(SReturn (Some (EInt false 32)))]) ]).
Definition file_IntBitMap : file := {| f_package := ["com"; "finproto"; "bitmap"]; f_imports := [["io"; "netty"; "buffer"; "ByteBuf"]]; f_class := class_IntBitMap |}.

(* codec/src/main/java/com/finproto/bitmap/LongBitMap.java *)
Definition class_LongBitMap : jclass :=
 (Class ["public"; "final"] "class" "LongBitMap" [] [(Ty "BitMap" [])] []
  [ MField ["private"] (Ty "long" []) "bits" None;
    MMethod [("Override", None)] ["public"] [] (Ty "void" []) "set" [((Ty "int" []), "pos")] (Some [(SLocal (Ty "long" []) "bit" (Some (EBin OShl (ELong 1) (EParen (EBin OSub (EInt false 63) (EName "pos")))))); (SExpr (EAsg (AOp OBOr) (EName "bits") (EName "bit")))]);
    MMethod [("Override", None)] ["public"] [] (Ty "void" []) "clear" [((Ty "int" []), "pos")] (Some [(SLocal (Ty "long" []) "bit" (Some (EBin OShl (ELong 1) (EParen (EBin OSub (EInt false 63) (EName "pos")))))); (SExpr (EAsg (AOp OBOr) (EName "bits") (EName "bit")))]);
    MMethod [("Override", None)] ["public"] [] (Ty "boolean" []) "get" [((Ty "int" []), "pos")] (Some [(SReturn (Some (EBin ONe (EParen (EBin OBAnd (EName "bits") (EParen (EBin OShl (ELong 1) (EParen (EBin OSub (EInt false 63) (EName "pos"))))))) (EInt false 0))))]);
    MMethod [("Override", None)] ["public"] [] (Ty "void" []) "write" [((Ty "ByteBuf" []), "buf")] (Some [(SLocal (Ty "long" []) "val" (Some (EName "bits"))); (SFor (Ty "int" []) "i" (EInt false 0) (EBin OLt (EName "i") (EInt false 8)) (EInc (EName "i")) (SBlock [(SLocal (Ty "byte" []) "b" (Some (ECast (Ty "byte" []) (EParen (EBin OBAnd (EParen (EBin OShr (EName "val") (EParen (EBin OSub (EInt false 49) (EBin OMul (EName "i") (EInt false 7)))))) (EInt true 127)))))); (SIf (EBin OLt (EName "i") (EInt false 7)) (SExpr (EAsg (AOp OBOr) (EName "b") (EInt true 128))) None); (SExpr (ECall (EName "buf") "writeByte" [(EName "b")]))]))]);
    MMethod [("Override", None)] ["public"] [] (Ty "void" []) "read" [((Ty "ByteBuf" []), "buf")] (Some [(SExpr (EAsg ASet (EName "bits") (EInt false 0))); (SLocal (Ty "boolean" []) "cont" None); (SLocal (Ty "int" []) "shift" (Some (EInt false 0))); (SDo (SBlock [(SLocal (Ty "byte" []) "b" (Some (ECall (EName "buf") "readByte" []))); (SExpr (EAsg ASet (EName "cont") (EBin ONe (EParen (EBin OBAnd (EName "b") (EInt true 128))) (EInt false 0)))); (SExpr (EAsg (AOp OBOr) (EName "bits") (EBin OShl (EParen (ECast (Ty "long" []) (EParen (EBin OBAnd (EName "b") (EInt true 127))))) (EName "shift")))); (SExpr (EAsg (AOp OAdd) (EName "shift") (EInt false 7)))]) (EName "cont"))]);
    MMethod [("Override", None)] ["public"] [] (Ty "int" []) "bitCount" [] (Some [(SReturn (Some (EInt false 64)))]) ]).
Definition file_LongBitMap : file := {| f_package := ["com"; "finproto"; "bitmap"]; f_imports := [["io"; "netty"; "buffer"; "ByteBuf"]]; f_class := class_LongBitMap |}.

(* codec/src/main/java/com/finproto/bitmap/ShortBitMap.java *)
Definition class_ShortBitMap : jclass :=
 (Class ["public"; "final"] "class" "ShortBitMap" [] [(Ty "BitMap" [])] []
  [ MField ["private"] (Ty "short" []) "bits" None;
    MMethod [("Override", None)] ["public"] [] (Ty "void" []) "set" [((Ty "int" []), "pos")] (Some [(SLocal (Ty "int" []) "bit" (Some (EBin OShl (EInt false 1) (EParen (EBin OSub (EInt false 15) (EName "pos")))))); (SExpr (EAsg (AOp OBOr) (EName "bits") (EName "bit")))]);
    MMethod [("Override", None)] ["public"] [] (Ty "void" []) "clear" [((Ty "int" []), "pos")] (Some [(SLocal (Ty "int" []) "bit" (Some (EBin OShl (EInt false 1) (EParen (EBin OSub (EInt false 15) (EName "pos")))))); (SExpr (EAsg (AOp OBAnd) (EName "bits") (EInv (EName "bit"))))]);
    MMethod [("Override", None)] ["public"] [] (Ty "boolean" []) "get" [((Ty "int" []), "pos")] (Some [(SReturn (Some (EBin ONe (EParen (EBin OBAnd (EName "bits") (EParen (EBin OShl (EInt false 1) (EParen (EBin OSub (EInt false 15) (EName "pos"))))))) (EInt false 0))))]);
    MMethod [("Override", None)] ["public"] [] (Ty "void" []) "write" [((Ty "ByteBuf" []), "buf")] (Some [(SLocal (Ty "byte" []) "high" (Some (ECast (Ty "byte" []) (EParen (EBin OBAnd (EParen (EBin OShr (EName "bits") (EInt false 8))) (EInt true 255)))))); (SLocal (Ty "byte" []) "low" (Some (ECast (Ty "byte" []) (EParen (EBin OBAnd (EName "bits") (EInt true 255)))))); (SExpr (EAsg (AOp OBOr) (EName "high") (EInt true 128))); (SExpr (ECall (EName "buf") "writeByte" [(EName "high")])); (SExpr (ECall (EName "buf") "writeByte" [(EName "low")]))]);
    MMethod [("Override", None)] ["public"] [] (Ty "void" []) "read" [((Ty "ByteBuf" []), "buf")] (Some [(SLocal (Ty "byte" []) "b1" (Some (ECall (EName "buf") "readByte" []))); (SLocal (Ty "byte" []) "b2" (Some (ECall (EName "buf") "readByte" []))); (SExpr (EAsg ASet (EName "bits") (ECast (Ty "short" []) (EParen (EBin OBOr (EParen (EBin OShl (EParen (EBin OBAnd (EName "b1") (EInt true 127))) (EInt false 8))) (EParen (EBin OBAnd (EName "b2") (EInt true 127))))))))]);
    MMethod [("Override", None)] ["public"] [] (Ty "int" []) "bitCount" [] (Some [(SReturn (Some (EInt false 16)))]) ]).
Definition file_ShortBitMap : file := {| f_package := ["com"; "finproto"; "bitmap"]; f_imports := [["io"; "netty"; "buffer"; "ByteBuf"]]; f_class := class_ShortBitMap |}.

(* codec/src/main/java/com/finproto/codec/BinaryCodec.java *)
Definition class_BinaryCodec : jclass :=
 (Class ["public"] "interface" "BinaryCodec" [] [] []
  [ MMethod [] [] [] (Ty "void" []) "encode" [((Ty "ByteBuf" []), "byteBuf")] None;
    MMethod [] [] [] (Ty "void" []) "decode" [((Ty "ByteBuf" []), "byteBuf")] None;
    MMethod [] ["default"] [] (Ty "void" []) "writeFixedString" [((Ty "ByteBuf" []), "byteBuf"); ((Ty "String" []), "value"); ((Ty "int" []), "len")] (Some [(SExpr (ECallU "writeFixedString" [(EName "byteBuf"); (EName "value"); (EName "len"); (EChr 32); (EBool false)]))]);
    MMethod [] ["default"] [] (Ty "void" []) "writeFixedString" [((Ty "ByteBuf" []), "byteBuf"); ((Ty "String" []), "value"); ((Ty "int" []), "len"); ((Ty "char" []), "padChar"); ((Ty "boolean" []), "padLeft")] (Some [(SLocal (Ty "int" []) "writedLen" (Some (EInt false 0))); (SIf (ENot (ECall (EName "StringUtil") "isNullOrEmpty" [(EName "value")])) (SBlock [(SLocal (TyArr (Ty "byte" [])) "bytes" (Some (ECall (EName "value") "getBytes" [(EField (EName "StandardCharsets") "UTF_8")]))); (SExpr (EAsg ASet (EName "writedLen") (ECall (EName "Math") "min" [(EField (EName "bytes") "length"); (EName "len")]))); (SIf (EBin OAnd (EName "padLeft") (EBin OLt (EName "writedLen") (EName "len"))) (SBlock [(SExpr (ECallU "padChar" [(EName "byteBuf"); (EBin OSub (EName "len") (EName "writedLen")); (EName "padChar")]))]) None); (SExpr (ECall (EName "byteBuf") "writeBytes" [(EName "bytes"); (EInt false 0); (EName "writedLen")]))]) None); (SIf (EBin OAnd (ENot (EName "padLeft")) (EBin OLt (EName "writedLen") (EName "len"))) (SBlock [(SExpr (ECallU "padChar" [(EName "byteBuf"); (EBin OSub (EName "len") (EName "writedLen")); (EName "padChar")]))]) None)]);
    MMethod [] ["public"; "default"] [] (Ty "void" []) "padChar" [((Ty "ByteBuf" []), "byteBuf"); ((Ty "int" []), "len"); ((Ty "char" []), "padChar")] (Some [(SWhile (EBin OGt (EName "len") (EInt false 0)) (SBlock [(SExpr (ECall (EName "byteBuf") "writeByte" [(EName "padChar")])); (SExpr (EDec (EName "len")))]))]);
    MMethod [] ["public"; "static"] [] (Ty "String" []) "trimByChar" [((Ty "String" []), "s"); ((Ty "char" []), "ch"); ((Ty "boolean" []), "padLeft")] (Some [(SLocal (Ty "int" []) "len" (Some (ECall (EName "s") "length" []))); (SLocal (Ty "int" []) "start" (Some (EInt false 0))); (SLocal (Ty "int" []) "end" (Some (EName "len"))); (SIf (EName "padLeft") (SBlock [(SWhile (EBin OAnd (EBin OLt (EName "start") (EName "len")) (EBin OEq (ECall (EName "s") "charAt" [(EName "start")]) (EName "ch"))) (SBlock [(SExpr (EInc (EName "start")))]))]) (Some (SBlock [(SWhile (EBin OAnd (EBin OGt (EName "end") (EInt false 0)) (EBin OEq (ECall (EName "s") "charAt" [(EBin OSub (EName "end") (EInt false 1))]) (EName "ch"))) (SBlock [(SExpr (EDec (EName "end")))]))]))); (SReturn (Some (ECall (EName "s") "substring" [(EName "start"); (EName "end")])))]);
    MMethod [] ["default"] [] (Ty "String" []) "readFixedString" [((Ty "ByteBuf" []), "byteBuf"); ((Ty "int" []), "len")] (Some [(SReturn (Some (ECallU "readFixedString" [(EName "byteBuf"); (EName "len"); (EChr 32); (EBool false)])))]);
    MMethod [] ["default"] [] (Ty "String" []) "readFixedString" [((Ty "ByteBuf" []), "byteBuf"); ((Ty "int" []), "len"); ((Ty "char" []), "trimPadChar"); ((Ty "boolean" []), "padLeft")] (Some [(SLocal (Ty "String" []) "value" (Some (ECall (ECall (EName "byteBuf") "readCharSequence" [(EName "len"); (EField (EName "StandardCharsets") "UTF_8")]) "toString" []))); (SIf (EName "padLeft") (SBlock [(SReturn (Some (ECallU "trimByChar" [(EName "value"); (EName "trimPadChar"); (EBool true)])))]) (Some (SBlock [(SReturn (Some (ECallU "trimByChar" [(EName "value"); (EName "trimPadChar"); (EBool false)])))])))]) ]).
Definition file_BinaryCodec : file := {| f_package := ["com"; "finproto"; "codec"]; f_imports := [["io"; "netty"; "buffer"; "ByteBuf"]; ["io"; "netty"; "util"; "internal"; "StringUtil"]; ["java"; "nio"; "charset"; "StandardCharsets"]]; f_class := class_BinaryCodec |}.

(* codec/src/main/java/com/finproto/codec/ChecksumAlgorithms.java *)
Definition class_ChecksumAlgorithms : jclass :=
 (Class ["public"] "interface" "ChecksumAlgorithms" [] [] []
  [ MField [] (Ty "String" []) "CRC16" (Some (EStr "CRC16"));
    MField [] (Ty "String" []) "CRC32" (Some (EStr "CRC32"));
    MField [] (Ty "String" []) "SSE_BIN" (Some (EStr "SSE_BIN"));
    MField [] (Ty "String" []) "SZSE_BIN" (Some (EStr "SZSE_BIN")) ]).
Definition file_ChecksumAlgorithms : file := {| f_package := ["com"; "finproto"; "codec"]; f_imports := []; f_class := class_ChecksumAlgorithms |}.

(* codec/src/main/java/com/finproto/codec/ChecksumService.java *)
Definition class_ChecksumService : jclass :=
 (Class ["public"] "interface" "ChecksumService" ["T"; "R"] [] []
  [ MMethod [] [] [] (Ty "R" []) "calc" [((Ty "T" []), "buffer")] None;
    MMethod [] ["default"] [] (Ty "boolean" []) "verify" [((Ty "T" []), "buffer"); ((Ty "R" []), "expectedChecksum")] (Some [(SReturn (Some (ECall (EName "Objects") "equals" [(ECallU "calc" [(EName "buffer")]); (EName "expectedChecksum")])))]);
    MMethod [] [] [] (Ty "String" []) "algorithm" [] None ]).
Definition file_ChecksumService : file := {| f_package := ["com"; "finproto"; "codec"]; f_imports := [["java"; "util"; "Objects"]]; f_class := class_ChecksumService |}.

(* codec/src/main/java/com/finproto/codec/ChecksumServiceFactory.java *)
Definition class_ChecksumServiceFactory : jclass :=
 (Class ["public"] "enum" "ChecksumServiceFactory" [] [] [("INSTANCE", [])]
  [ MMethod [] ["public"; "static"] [] (Ty "ChecksumServiceFactory" []) "getInstance" [] (Some [(SReturn (Some (EName "INSTANCE")))]);
    MField ["private"; "final"] (Ty "Map" [(Ty "String" []); (Ty "ChecksumService" [TyAny; TyAny])]) "CACHE" (Some (ENew (TyDia "HashMap") []));
    MCtor ["private"] "ChecksumServiceFactory" [] [(SExpr (ECallU "registry" [(ENew (Ty "Crc16ChecksumService" []) [])])); (SExpr (ECallU "registry" [(ENew (Ty "Crc32ChecksumService" []) [])]))];
    MMethod [] ["public"] [] (Ty "void" []) "removeChecksumService" [((Ty "String" []), "name")] (Some [(SExpr (ECall (EName "CACHE") "remove" [(EName "name")]))]);
    MMethod [] ["public"] [] (Ty "void" []) "clearAllChecksumService" [] (Some [(SExpr (ECall (EName "CACHE") "clear" []))]);
    MMethod [] ["public"] [] (Ty "boolean" []) "registry" [((Ty "ChecksumService" [TyAny; TyAny]), "checksumService")] (Some [(SIf (ECall (EName "CACHE") "containsKey" [(ECall (EName "checksumService") "algorithm" [])]) (SBlock [(SReturn (Some (EBool false)))]) None); (SExpr (ECall (EName "CACHE") "put" [(ECall (EName "checksumService") "algorithm" []); (EName "checksumService")])); (SReturn (Some (EBool true)))]);
    MMethod [("SuppressWarnings", (Some "unchecked"))] ["public"] ["T"; "R"] (Ty "ChecksumService" [(Ty "T" []); (Ty "R" [])]) "getChecksumService" [((Ty "String" []), "name")] (Some [(SReturn (Some (ECast (Ty "ChecksumService" [(Ty "T" []); (Ty "R" [])]) (ECall (EName "CACHE") "get" [(EName "name")]))))]) ]).
Definition file_ChecksumServiceFactory : file := {| f_package := ["com"; "finproto"; "codec"]; f_imports := [["java"; "util"; "HashMap"]; ["java"; "util"; "Map"]]; f_class := class_ChecksumServiceFactory |}.

(* codec/src/main/java/com/finproto/codec/Crc16ChecksumService.java *)
Definition class_Crc16ChecksumService : jclass :=
 (Class ["public"] "class" "Crc16ChecksumService" [] [(Ty "ChecksumService" [(Ty "ByteBuf" []); (Ty "Integer" [])])] []
  [ MField ["private"; "static"; "final"] (TyArr (Ty "int" [])) "CRC_TABLE" (Some (ENewArr (Ty "int" []) (EInt false 256)));
    MStatic [(SFor (Ty "int" []) "i" (EInt false 0) (EBin OLt (EName "i") (EInt false 256)) (EInc (EName "i")) (SBlock [(SLocal (Ty "int" []) "crc" (Some (EName "i"))); (SFor (Ty "int" []) "j" (EInt false 0) (EBin OLt (EName "j") (EInt false 8)) (EInc (EName "j")) (SBlock [(SIf (EBin ONe (EParen (EBin OBAnd (EName "crc") (EInt false 1))) (EInt false 0)) (SBlock [(SExpr (EAsg ASet (EName "crc") (EBin OXor (EParen (EBin OUshr (EName "crc") (EInt false 1))) (EInt true 40961))))]) (Some (SBlock [(SExpr (EAsg (AOp OUshr) (EName "crc") (EInt false 1)))])))])); (SExpr (EAsg ASet (EIndex (EName "CRC_TABLE") (EName "i")) (EName "crc")))]))];
    MMethod [("Override", None)] ["public"] [] (Ty "Integer" []) "calc" [((Ty "ByteBuf" []), "buf")] (Some [(SLocal (Ty "int" []) "crc" (Some (EInt true 65535))); (SLocal (Ty "int" []) "readerIndex" (Some (ECall (EName "buf") "readerIndex" []))); (SLocal (Ty "int" []) "readableBytes" (Some (ECall (EName "buf") "readableBytes" []))); (SFor (Ty "int" []) "i" (EInt false 0) (EBin OLt (EName "i") (EName "readableBytes")) (EInc (EName "i")) (SBlock [(SLocal (Ty "int" []) "b" (Some (ECall (EName "buf") "getUnsignedByte" [(EBin OAdd (EName "readerIndex") (EName "i"))]))); (SExpr (EAsg ASet (EName "crc") (EBin OXor (EParen (EBin OUshr (EName "crc") (EInt false 8))) (EIndex (EName "CRC_TABLE") (EBin OBAnd (EParen (EBin OXor (EName "crc") (EName "b"))) (EInt true 255))))))])); (SReturn (Some (EBin OBAnd (EName "crc") (EInt true 65535))))]);
    MMethod [("Override", None)] ["public"] [] (Ty "String" []) "algorithm" [] (Some [(SReturn (Some (EField (EName "ChecksumAlgorithms") "CRC16")))]) ]).
Definition file_Crc16ChecksumService : file := {| f_package := ["com"; "finproto"; "codec"]; f_imports := [["io"; "netty"; "buffer"; "ByteBuf"]]; f_class := class_Crc16ChecksumService |}.

(* codec/src/main/java/com/finproto/codec/Crc32ChecksumService.java *)
Definition class_Crc32ChecksumService : jclass :=
 (Class ["public"] "class" "Crc32ChecksumService" [] [(Ty "ChecksumService" [(Ty "ByteBuf" []); (Ty "Integer" [])])] []
  [ MField ["private"; "static"; "final"] (TyArr (Ty "int" [])) "CRC_TABLE" (Some (ENewArr (Ty "int" []) (EInt false 256)));
    MStatic [(SFor (Ty "int" []) "i" (EInt false 0) (EBin OLt (EName "i") (EInt false 256)) (EInc (EName "i")) (SBlock [(SLocal (Ty "int" []) "c" (Some (EName "i"))); (SFor (Ty "int" []) "j" (EInt false 0) (EBin OLt (EName "j") (EInt false 8)) (EInc (EName "j")) (SBlock [(SIf (EBin ONe (EParen (EBin OBAnd (EName "c") (EInt false 1))) (EInt false 0)) (SBlock [(SExpr (EAsg ASet (EName "c") (EBin OXor (EInt true 3988292384) (EParen (EBin OUshr (EName "c") (EInt false 1))))))]) (Some (SBlock [(SExpr (EAsg (AOp OUshr) (EName "c") (EInt false 1)))])))])); (SExpr (EAsg ASet (EIndex (EName "CRC_TABLE") (EName "i")) (EName "c")))]))];
    MMethod [("Override", None)] ["public"] [] (Ty "Integer" []) "calc" [((Ty "ByteBuf" []), "buf")] (Some [(SLocal (Ty "int" []) "crc" (Some (EInt true 4294967295))); (SLocal (Ty "int" []) "readerIndex" (Some (ECall (EName "buf") "readerIndex" []))); (SLocal (Ty "int" []) "readableBytes" (Some (ECall (EName "buf") "readableBytes" []))); (SFor (Ty "int" []) "i" (EInt false 0) (EBin OLt (EName "i") (EName "readableBytes")) (EInc (EName "i")) (SBlock [(SLocal (Ty "int" []) "b" (Some (ECall (EName "buf") "getUnsignedByte" [(EBin OAdd (EName "readerIndex") (EName "i"))]))); (SExpr (EAsg ASet (EName "crc") (EBin OXor (EIndex (EName "CRC_TABLE") (EBin OBAnd (EParen (EBin OXor (EName "crc") (EName "b"))) (EInt true 255))) (EParen (EBin OUshr (EName "crc") (EInt false 8))))))])); (SReturn (Some (EBin OXor (EName "crc") (EInt true 4294967295))))]);
    MMethod [("Override", None)] ["public"] [] (Ty "String" []) "algorithm" [] (Some [(SReturn (Some (EField (EName "ChecksumAlgorithms") "CRC32")))]) ]).
Definition file_Crc32ChecksumService : file := {| f_package := ["com"; "finproto"; "codec"]; f_imports := [["io"; "netty"; "buffer"; "ByteBuf"]]; f_class := class_Crc32ChecksumService |}.

(* codec/src/main/java/com/finproto/codec/SseBinChecksumService.java *)
Definition class_SseBinChecksumService : jclass :=
 (Class ["public"] "class" "SseBinChecksumService" [] [(Ty "ChecksumService" [(Ty "ByteBuf" []); (Ty "Integer" [])])] []
  [ MMethod [("Override", None)] ["public"] [] (Ty "Integer" []) "calc" [((Ty "ByteBuf" []), "buf")] (Some [(SLocal (Ty "int" []) "readerIndex" (Some (ECall (EName "buf") "readerIndex" []))); (SLocal (Ty "int" []) "readableBytes" (Some (ECall (EName "buf") "readableBytes" []))); (SLocal (Ty "int" []) "checksum" (Some (EInt false 0))); (SFor (Ty "int" []) "i" (EInt false 0) (EBin OLt (EName "i") (EName "readableBytes")) (EInc (EName "i")) (SBlock [(SLocal (Ty "int" []) "b" (Some (ECall (EName "buf") "getUnsignedByte" [(EBin OAdd (EName "readerIndex") (EName "i"))]))); (SExpr (EAsg ASet (EName "checksum") (EBin OBAnd (EParen (EBin OAdd (EName "checksum") (EName "b"))) (EInt true 255))))])); (SReturn (Some (EName "checksum")))]);
    MMethod [("Override", None)] ["public"] [] (Ty "String" []) "algorithm" [] (Some [(SReturn (Some (EField (EName "ChecksumAlgorithms") "SSE_BIN")))]) ]).
Definition file_SseBinChecksumService : file := {| f_package := ["com"; "finproto"; "codec"]; f_imports := [["io"; "netty"; "buffer"; "ByteBuf"]]; f_class := class_SseBinChecksumService |}.

(* codec/src/main/java/com/finproto/codec/SzseBinChecksumService.java *)
Definition class_SzseBinChecksumService : jclass :=
 (Class ["public"] "class" "SzseBinChecksumService" [] [(Ty "ChecksumService" [(Ty "ByteBuf" []); (Ty "Integer" [])])] []
  [ MMethod [("Override", None)] ["public"] [] (Ty "Integer" []) "calc" [((Ty "ByteBuf" []), "buf")] (Some [(SLocal (Ty "int" []) "readerIndex" (Some (ECall (EName "buf") "readerIndex" []))); (SLocal (Ty "int" []) "readableBytes" (Some (ECall (EName "buf") "readableBytes" []))); (SLocal (Ty "long" []) "sum" (Some (EInt false 0))); (SFor (Ty "int" []) "i" (EInt false 0) (EBin OLt (EName "i") (EName "readableBytes")) (EInc (EName "i")) (SBlock [(SExpr (EAsg (AOp OAdd) (EName "sum") (ECall (EName "buf") "getUnsignedByte" [(EBin OAdd (EName "readerIndex") (EName "i"))])))])); (SReturn (Some (ECast (Ty "int" []) (EParen (EBin ORem (EName "sum") (EInt false 256))))))]);
    MMethod [("Override", None)] ["public"] [] (Ty "String" []) "algorithm" [] (Some [(SReturn (Some (EField (EName "ChecksumAlgorithms") "SZSE_BIN")))]) ]).
Definition file_SzseBinChecksumService : file := {| f_package := ["com"; "finproto"; "codec"]; f_imports := [["io"; "netty"; "buffer"; "ByteBuf"]]; f_class := class_SzseBinChecksumService |}.

Definition codec_files : list (Text.text * file) :=
  [ (text_BitMap, file_BitMap);
    (text_ByteBitMap, file_ByteBitMap);
    (text_IntBitMap, file_IntBitMap);
    (text_LongBitMap, file_LongBitMap);
    (text_ShortBitMap, file_ShortBitMap);
    (text_BinaryCodec, file_BinaryCodec);
    (text_ChecksumAlgorithms, file_ChecksumAlgorithms);
    (text_ChecksumService, file_ChecksumService);
    (text_ChecksumServiceFactory, file_ChecksumServiceFactory);
    (text_Crc16ChecksumService, file_Crc16ChecksumService);
    (text_Crc32ChecksumService, file_Crc32ChecksumService);
    (text_SseBinChecksumService, file_SseBinChecksumService);
    (text_SzseBinChecksumService, file_SzseBinChecksumService) ].
Definition codec_classes : list (string * jclass) :=
  [ ("BitMap", class_BitMap);
    ("ByteBitMap", class_ByteBitMap);
    ("IntBitMap", class_IntBitMap);
    ("LongBitMap", class_LongBitMap);
    ("ShortBitMap", class_ShortBitMap);
    ("BinaryCodec", class_BinaryCodec);
    ("ChecksumAlgorithms", class_ChecksumAlgorithms);
    ("ChecksumService", class_ChecksumService);
    ("ChecksumServiceFactory", class_ChecksumServiceFactory);
    ("Crc16ChecksumService", class_Crc16ChecksumService);
    ("Crc32ChecksumService", class_Crc32ChecksumService);
    ("SseBinChecksumService", class_SseBinChecksumService);
    ("SzseBinChecksumService", class_SzseBinChecksumService) ].
