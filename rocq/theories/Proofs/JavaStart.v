(* Class initialisation, run as Java. *)
From Coq Require Import ZArith List Bool String Ascii Lia.
From Verif.Model Require Import JavaPrim ByteBuf Checksum Utf8 Codec Ast Interp Factory Show Heap GenSse Library.
From Verif.Spec Require Import JavaState.
From Verif.Proofs Require Import BytesFacts JavaSem JavaEncode JavaDecode JavaClasses JavaLibrary JavaServices.
From Verif.Java Require Import Lex Syntax Source Sources Sem CodecTrees Init Program.
Import ListNotations.
Open Scope Z_scope.
Open Scope list_scope.

(* ---------- start ---------- *)
Definition cache_map (R : list (string * jval)) : mkey -> option jval := fold_left (fun m e => m_set m (MKey (KStr (chars (fst e)))) (Some (snd e))) R (fun _ => None).
Definition supplier_map (es : list (key * string)) : mkey -> option jval := fold_left (fun m e => m_set m (MKey (fst e)) (Some (JSup (snd e)))) es (fun _ => None).
Definition reverse_start (es : list (string * Z)) : mkey -> option jval := fold_left (fun m e => m_set m (MCls (fst e)) (Some (JT (T1 "Integer") (HInt (snd e))))) es (fun _ => None).
Definition start_value (x : string) : jval :=
  match assoc x [("ChecksumServiceFactory.CACHE", JMap (cache_map [(CRC16, JOne "Crc16ChecksumService"); (CRC32, JOne "Crc32ChecksumService")]));
                 ("Crc16ChecksumService.CRC_TABLE", JArr crc16_table); ("Crc32ChecksumService.CRC_TABLE", JArr crc32_table);
                 ("sse.SseBinary.BodyMessageFactory.reverseMap", JMap (reverse_start sse_SseBinary_reverse))]%string with
  | Some v => v
  | None =>
  match assoc x (map (fun a => ("ChecksumAlgorithms." ++ a, jstr (chars a))%string) [CRC16; CRC32; SSE_BIN; SZSE_BIN]) with
  | Some v => v
  | None =>
  match assoc x (map (fun nz => (type_place ++ "." ++ fst nz ++ ".value", jint (snd nz))%string) sse_SseBinary_msgtypes) with
  | Some v => v
  | None =>
  match assoc x (flat_map (fun sc => if creating (sc_def sc) then [(map_key sc, JMap (supplier_map (match assoc (c_name (sc_def sc)) all_registrations with Some es => es | None => [] end)))] else []) (flat_map (fun s => s_main s :: s_nested s) message_files)) with
  | Some v => v
  | None => JVoid
  end end end end.
Definition after_start : list (string * jval) := map (fun x => (x, start_value x)) (stat_keys lib_program).
Lemma starts pr vcall h b L : init_all lib_program pr vcall 304 {| s_h := h; s_b := b; s_loc := L; s_stat := start_stat lib_program |} = Ret tt {| s_h := h; s_b := b; s_loc := L; s_stat := after_start |}.
Proof. vm_compute. reflexivity. Qed.
