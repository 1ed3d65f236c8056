(* codec/src/main/java/com/finproto/codec: checksum services and their registry. *)
From Coq Require Import ZArith List Bool String.
From Verif.Model Require Import JavaPrim ByteBuf.
Import ListNotations.
Open Scope Z_scope.

(* the loop "for (i = 0; i < readableBytes; i++) { int b = buf.getUnsignedByte(readerIndex + i); ... }"
   common to the four services, over the accumulator [acc] *)
Definition over_readable {A} (f : A -> Z -> A) (init : A) (b : bytebuf) : A :=
  fold_left (fun acc i => f acc (nth (ridx b + i) (arr b) 0)) (seq 0 (List.length (readable b))) init.

(* Crc16ChecksumService.java:10-22  CRC_TABLE *)
Fixpoint crc16_entry (j : nat) (crc : Z) : Z :=
  match j with
  | O => crc
  | S j' => crc16_entry j' (if negb (Z.land crc 1 =? 0) then Z.lxor (iushr crc 1) (hex32 40961) else iushr crc 1)
  end.
Definition crc16_table : list Z := map (fun i => crc16_entry 8 (Z.of_nat i)) (seq 0 256).

(* Crc16ChecksumService.java:25-36  calc *)
Definition crc16_step (crc b : Z) : Z :=
  Z.lxor (iushr crc 8) (nth (Z.to_nat (Z.land (Z.lxor crc b) 255)) crc16_table 0).
Definition crc16_calc (b : bytebuf) : Z := Z.land (over_readable crc16_step (hex32 65535) b) 65535.

(* Crc32ChecksumService.java:10-22  CRC_TABLE *)
Fixpoint crc32_entry (j : nat) (c : Z) : Z :=
  match j with
  | O => c
  | S j' => crc32_entry j' (if negb (Z.land c 1 =? 0) then Z.lxor (hex32 3988292384) (iushr c 1) else iushr c 1)
  end.
Definition crc32_table : list Z := map (fun i => crc32_entry 8 (Z.of_nat i)) (seq 0 256).

(* Crc32ChecksumService.java:25-36  calc *)
Definition crc32_step (crc b : Z) : Z :=
  Z.lxor (nth (Z.to_nat (Z.land (Z.lxor crc b) 255)) crc32_table 0) (iushr crc 8).
Definition crc32_calc (b : bytebuf) : Z := Z.lxor (over_readable crc32_step (hex32 4294967295) b) (hex32 4294967295).

(* SseBinChecksumService.java:12-22  calc *)
Definition sse_calc (b : bytebuf) : Z :=
  over_readable (fun c x => Z.land (wrap 32 (c + x)) 255) 0 b.

(* SzseBinChecksumService.java:12-22  calc: long sum; (int)(sum % 256) *)
Definition szse_calc (b : bytebuf) : Z :=
  wrap 32 (Z.rem (over_readable (fun s x => wrap 64 (s + x)) 0 b) 256).

(* ChecksumService.java:22-24  verify: Objects.equals(calc(buffer), expectedChecksum); None = null *)
Definition verify (calc : bytebuf -> Z) (b : bytebuf) (expected : option Z) : bool :=
  match expected with Some x => calc b =? x | None => false end.

(* ChecksumAlgorithms.java:4-7 *)
Definition CRC16 : string := "CRC16".
Definition CRC32 : string := "CRC32".
Definition SSE_BIN : string := "SSE_BIN".
Definition SZSE_BIN : string := "SZSE_BIN".

(* A registered service: its algorithm() and its calc.
   Simplification: calc is a function of the readable bytes (no side effects, returns a non-null Integer). *)
Record service := { algorithm : string; calc : list Z -> Z }.

(* HashMap<String, ChecksumService>, as an association list with at most one entry per key (put replaces) *)
Definition cache := list (string * service).
Fixpoint cache_get (c : cache) (name : string) : option service :=
  match c with
  | [] => None
  | (k, s) :: r => if String.eqb k name then Some s else cache_get r name
  end.
Definition cache_remove (c : cache) (name : string) : cache := filter (fun e => negb (String.eqb (fst e) name)) c.
Definition cache_put (c : cache) (name : string) (s : service) : cache := (name, s) :: cache_remove c name.

(* ChecksumServiceFactory.java:28-34 registry, 20-22 removeChecksumService, 24-26 clearAllChecksumService,
   37-39 getChecksumService *)
Definition registry (c : cache) (s : service) : bool * cache :=
  if cache_get c (algorithm s) then (false, c) else (true, cache_put c (algorithm s) s).
Definition remove_service (c : cache) (name : string) : cache := cache_remove c name.
Definition clear_services (c : cache) : cache := [].
Definition get_service (c : cache) (name : string) : option service := cache_get c name.

(* the services of the library, as functions of the readable bytes *)
Definition wrapped (bs : list Z) : bytebuf :=
  {| arr := bs; ridx := 0; widx := List.length bs; maxcap := Z.of_nat (List.length bs); cs_slack := false;
     policy := {| extra := fun _ => O; fill := fun _ => 0 |} |}.
Definition crc16_service := {| algorithm := CRC16; calc := fun bs => crc16_calc (wrapped bs) |}.
Definition crc32_service := {| algorithm := CRC32; calc := fun bs => crc32_calc (wrapped bs) |}.
Definition sse_service := {| algorithm := SSE_BIN; calc := fun bs => sse_calc (wrapped bs) |}.
Definition szse_service := {| algorithm := SZSE_BIN; calc := fun bs => szse_calc (wrapped bs) |}.

(* ChecksumServiceFactory.java:15-18  constructor *)
Definition initial_cache : cache := snd (registry (snd (registry [] crc16_service)) crc32_service).
