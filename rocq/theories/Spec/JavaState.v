(* The static state of the running Java program against the state of the model: registry, factories, constants. *)
From Coq Require Import ZArith List Bool String.
From Verif.Model Require Import JavaPrim ByteBuf Checksum Ast Interp Factory Heap GenSse Library.
From Verif.Java Require Import Lex Syntax Source Sources Sem CodecTrees Init Program.
Import ListNotations.
Open Scope Z_scope.
Open Scope list_scope.

(* the classes of the files *)
Definition file_class (sc : source_class) : Prop := In sc (flat_map (fun s => s_main s :: s_nested s) message_files).
(* classes whose decode creates an object from a key *)
Definition creating (cd : class_def) : bool := existsb (fun s => match s with DCreate _ _ => true | _ => false end) (c_dec cd).
Definition factory_name (f : string) : string := (capital f ++ "MessageFactory")%string.
(* the class whose map it asks, and the static or singleton field that holds the map *)
Definition map_place (sc : source_class) : string :=
  let c := c_name (sc_def sc) in if is_own (sc_form sc) then c else (c ++ "." ++ factory_name (fst (create_of (sc_def sc))))%string.
Definition map_key (sc : source_class) : string := (map_place sc ++ "." ++ fst (create_of (sc_def sc)) ++ "Map")%string.

(* a Java object that is the service s of the model: one written by a user, or one of the library *)
Definition is_service (v : jval) (s : service) : Prop :=
  v = JSvc (chars (algorithm s)) (calc s)
  \/ v = JOne "Crc16ChecksumService" /\ s = crc16_service \/ v = JOne "Crc32ChecksumService" /\ s = crc32_service
  \/ v = JOne "SseBinChecksumService" /\ s = sse_service \/ v = JOne "SzseBinChecksumService" /\ s = szse_service.
Definition sse_owner : string := "sse.SseBinary".
Definition type_place : string := "sse.SseBinary.BodyMessageFactory.MessageType".

(* R: the registry; W: the maps of the factories; V: the reverse map of the SSE factory *)
Record agrees (stat : list (string * jval)) (R : cache) (W : factories) (V : list (string * Z)) : Prop := {
  ag_keys : map fst stat = stat_keys lib_program;
  ag_owners : map fst W = map fst lib_factories;
  ag_crc16 : assoc "Crc16ChecksumService.CRC_TABLE"%string stat = Some (JArr crc16_table);
  ag_crc32 : assoc "Crc32ChecksumService.CRC_TABLE"%string stat = Some (JArr crc32_table);
  ag_names : forall a, In a [CRC16; CRC32; SSE_BIN; SZSE_BIN] -> assoc ("ChecksumAlgorithms." ++ a)%string stat = Some (jstr (chars a));
  ag_types : forall n z, In (n, z) sse_SseBinary_msgtypes -> assoc (type_place ++ "." ++ n ++ ".value")%string stat = Some (jint z);
  ag_cache : exists m, assoc "ChecksumServiceFactory.CACHE"%string stat = Some (JMap m)
             /\ forall a, match cache_get R a with Some s => exists v, m (MKey (KStr (chars a))) = Some v /\ is_service v s | None => m (MKey (KStr (chars a))) = None end;
  ag_maps : forall sc, file_class sc -> creating (sc_def sc) = true ->
            exists m, assoc (map_key sc) stat = Some (JMap m) /\ m MNull = None /\ forall k, m (MKey k) = option_map JSup (lookup_factory W (c_name (sc_def sc)) k);
  ag_reverse : exists m, assoc "sse.SseBinary.BodyMessageFactory.reverseMap"%string stat = Some (JMap m)
               /\ forall c, m (MCls c) = option_map (fun z => JT (T1 "Integer") (HInt z)) (assoc c V) }.
