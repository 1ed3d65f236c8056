(* GENERATED by tools/mkcodec.py: the files of /repo/codec/src/main/java, verbatim. *)
From Verif.Java Require Import Text.
Open Scope text_scope.

(* codec/src/main/java/com/finproto/bitmap/BitMap.java *)
Definition text_BitMap : text :=
"package com.finproto.bitmap;

import io.netty.buffer.ByteBuf;

public interface BitMap {
  void set(int pos);

  boolean get(int pos);

  void clear(int pos);

  void write(ByteBuf buf);

  void read(ByteBuf buf);

  int bitCount();
}
".

(* codec/src/main/java/com/finproto/bitmap/ByteBitMap.java *)
Definition text_ByteBitMap : text :=
"package com.finproto.bitmap;

import io.netty.buffer.ByteBuf;

public final class ByteBitMap implements BitMap {
  private byte bits;

  @Override
  public void set(int pos) {
    int bit = 1 << (7 - pos);
    bits |= bit;
  }

  @Override
  public void clear(int pos) {
    int bit = 1 << (7 - pos);
    bits &= ~bit;
  }

  @Override
  public boolean get(int pos) {
    return (bits & (1 << (7 - pos))) != 0;
  }

  @Override
  public void write(ByteBuf buf) {
    buf.writeByte(bits);
  }

  @Override
  public void read(ByteBuf buf) {
    bits = buf.readByte();
  }

  @Override
  public int bitCount() {
    return 8;
  }
}
".

(* codec/src/main/java/com/finproto/bitmap/IntBitMap.java *)
Definition text_IntBitMap : text :=
"package com.finproto.bitmap;

import io.netty.buffer.ByteBuf;

public final class IntBitMap implements BitMap {
  private int bits;

  @Override
  public void set(int pos) {
    int bit = 1 << (31 - pos);
    bits |= bit;
  }

  @Override
  public void clear(int pos) {
    int bit = 1 << (31 - pos);
    bits |= bit;
  }

  @Override
  public boolean get(int pos) {
    return (bits & (1 << (31 - pos))) != 0;
  }

  @Override
  public void write(ByteBuf buf) {
    for (int i = 0; i < 4; i++) {
      byte b = (byte) ((bits >> (24 - i * 7)) & 0x7F);
      if (i < 3) b |= 0x80;
      buf.writeByte(b);
    }
  }

  @Override
  public void read(ByteBuf buf) {
    bits = 0;
    boolean cont;
    int shift = 0;
    do {
      byte b = buf.readByte();
      cont = (b & 0x80) != 0;
      bits |= (b & 0x7F) << shift;
      shift += 7;
    } while (cont);
  }

  @Override
  public int bitCount() {
    return 32;
  }
}
".

(* codec/src/main/java/com/finproto/bitmap/LongBitMap.java *)
Definition text_LongBitMap : text :=
"package com.finproto.bitmap;

import io.netty.buffer.ByteBuf;

public final class LongBitMap implements BitMap {
  private long bits;

  @Override
  public void set(int pos) {
    long bit = 1L << (63 - pos);
    bits |= bit;
  }

  @Override
  public void clear(int pos) {
    long bit = 1L << (63 - pos);
    bits |= bit;
  }

  @Override
  public boolean get(int pos) {
    return (bits & (1L << (63 - pos))) != 0;
  }

  @Override
  public void write(ByteBuf buf) {
    long val = bits;
    for (int i = 0; i < 8; i++) {
      byte b = (byte) ((val >> (49 - i * 7)) & 0x7F);
      if (i < 7) b |= 0x80;
      buf.writeByte(b);
    }
  }

  @Override
  public void read(ByteBuf buf) {
    bits = 0;
    boolean cont;
    int shift = 0;
    do {
      byte b = buf.readByte();
      cont = (b & 0x80) != 0;
      bits |= ((long) (b & 0x7F)) << shift;
      shift += 7;
    } while (cont);
  }

  @Override
  public int bitCount() {
    return 64;
  }
}
".

(* codec/src/main/java/com/finproto/bitmap/ShortBitMap.java *)
Definition text_ShortBitMap : text :=
"package com.finproto.bitmap;

import io.netty.buffer.ByteBuf;

public final class ShortBitMap implements BitMap {
  private short bits;

  @Override
  public void set(int pos) {
    int bit = 1 << (15 - pos);
    bits |= bit;
  }

  @Override
  public void clear(int pos) {
    int bit = 1 << (15 - pos);
    bits &= ~bit;
  }

  @Override
  public boolean get(int pos) {
    return (bits & (1 << (15 - pos))) != 0;
  }

  @Override
  public void write(ByteBuf buf) {
    byte high = (byte) ((bits >> 8) & 0xFF);
    byte low = (byte) (bits & 0xFF);
    high |= 0x80;
    buf.writeByte(high);
    buf.writeByte(low);
  }

  @Override
  public void read(ByteBuf buf) {
    byte b1 = buf.readByte();
    byte b2 = buf.readByte();
    bits = (short) (((b1 & 0x7F) << 8) | (b2 & 0x7F));
  }

  @Override
  public int bitCount() {
    return 16;
  }
}
".

(* codec/src/main/java/com/finproto/codec/BinaryCodec.java *)
Definition text_BinaryCodec : text :=
"package com.finproto.codec;

import io.netty.buffer.ByteBuf;
import io.netty.util.internal.StringUtil;
import java.nio.charset.StandardCharsets;

public interface BinaryCodec {

  void encode(ByteBuf byteBuf);

  void decode(ByteBuf byteBuf);

  default void writeFixedString(ByteBuf byteBuf, String value, int len) {
    writeFixedString(byteBuf, value, len, ' ', false);
  }

  default void writeFixedString(
      ByteBuf byteBuf, String value, int len, char padChar, boolean padLeft) {
    int writedLen = 0;
    if (!StringUtil.isNullOrEmpty(value)) {
      byte[] bytes = value.getBytes(StandardCharsets.UTF_8);
      writedLen = Math.min(bytes.length, len);
      if (padLeft && writedLen < len) {
        padChar(byteBuf, len - writedLen, padChar);
      }
      byteBuf.writeBytes(bytes, 0, writedLen);
    }
    if (!padLeft && writedLen < len) {
      padChar(byteBuf, len - writedLen, padChar);
    }
  }

  public default void padChar(ByteBuf byteBuf, int len, char padChar) {
    while (len > 0) {
      byteBuf.writeByte(padChar);
      len--;
    }
  }

  public static String trimByChar(String s, char ch, boolean padLeft) {
    int len = s.length();
    int start = 0;
    int end = len;

    if (padLeft) {
      while (start < len && s.charAt(start) == ch) {
        start++;
      }
    } else {
      while (end > 0 && s.charAt(end - 1) == ch) {
        end--;
      }
    }

    return s.substring(start, end);
  }

  default String readFixedString(ByteBuf byteBuf, int len) {
    return readFixedString(byteBuf, len, ' ', false);
  }

  default String readFixedString(ByteBuf byteBuf, int len, char trimPadChar, boolean padLeft) {
    String value = byteBuf.readCharSequence(len, StandardCharsets.UTF_8).toString();
    if (padLeft) {
      return trimByChar(value, trimPadChar, true);
    } else {
      return trimByChar(value, trimPadChar, false);
    }
  }
}
".

(* codec/src/main/java/com/finproto/codec/ChecksumAlgorithms.java *)
Definition text_ChecksumAlgorithms : text :=
"package com.finproto.codec;

public interface ChecksumAlgorithms {
  String CRC16 = ""CRC16"";
  String CRC32 = ""CRC32"";
  String SSE_BIN = ""SSE_BIN"";
  String SZSE_BIN = ""SZSE_BIN"";
}
".

(* codec/src/main/java/com/finproto/codec/ChecksumService.java *)
Definition text_ChecksumService : text :=
"package com.finproto.codec;

import java.util.Objects;

public interface ChecksumService<T, R> {

  /**
   * calc ByteBuffer checksum
   *
   * @param buffer bytebuf
   * @return checksum
   */
  R calc(T buffer);

  /**
   * verify
   *
   * @param buffer bytebuf
   * @param expectedChecksum
   * @return true or false
   */
  default boolean verify(T buffer, R expectedChecksum) {
    return Objects.equals(calc(buffer), expectedChecksum);
  }

  /**
   * checksum algorithm name
   *
   * @return algorithm name: ""SSE_BIN"", ""CRC32"" and so no.
   */
  String algorithm();
}
".

(* codec/src/main/java/com/finproto/codec/ChecksumServiceFactory.java *)
Definition text_ChecksumServiceFactory : text :=
"package com.finproto.codec;

import java.util.HashMap;
import java.util.Map;

public enum ChecksumServiceFactory {
  INSTANCE;

  public static ChecksumServiceFactory getInstance() {
    return INSTANCE;
  }

  private final Map<String, ChecksumService<?, ?>> CACHE = new HashMap<>();

  private ChecksumServiceFactory() {
    registry(new Crc16ChecksumService());
    registry(new Crc32ChecksumService());
  }

  public void removeChecksumService(String name) {
    CACHE.remove(name);
  }

  public void clearAllChecksumService() {
    CACHE.clear();
  }

  public boolean registry(ChecksumService<?, ?> checksumService) {
    if (CACHE.containsKey(checksumService.algorithm())) {
      return false;
    }
    CACHE.put(checksumService.algorithm(), checksumService);
    return true;
  }

  @SuppressWarnings(""unchecked"")
  public <T, R> ChecksumService<T, R> getChecksumService(String name) {
    return (ChecksumService<T, R>) CACHE.get(name);
  }
}
".

(* codec/src/main/java/com/finproto/codec/Crc16ChecksumService.java *)
Definition text_Crc16ChecksumService : text :=
"package com.finproto.codec;

import io.netty.buffer.ByteBuf;

/** CRC-16/MODBUS */
public class Crc16ChecksumService implements ChecksumService<ByteBuf, Integer> {

  private static final int[] CRC_TABLE = new int[256];

  static {
    for (int i = 0; i < 256; i++) {
      int crc = i;
      for (int j = 0; j < 8; j++) {
        if ((crc & 1) != 0) {
          crc = (crc >>> 1) ^ 0xA001;
        } else {
          crc >>>= 1;
        }
      }
      CRC_TABLE[i] = crc;
    }
  }

  @Override
  public Integer calc(ByteBuf buf) {
    int crc = 0xFFFF;
    int readerIndex = buf.readerIndex();
    int readableBytes = buf.readableBytes();

    for (int i = 0; i < readableBytes; i++) {
      int b = buf.getUnsignedByte(readerIndex + i);
      crc = (crc >>> 8) ^ CRC_TABLE[(crc ^ b) & 0xFF];
    }

    return crc & 0xFFFF;
  }

  @Override
  public String algorithm() {
    return ChecksumAlgorithms.CRC16;
  }
}
".

(* codec/src/main/java/com/finproto/codec/Crc32ChecksumService.java *)
Definition text_Crc32ChecksumService : text :=
"package com.finproto.codec;

import io.netty.buffer.ByteBuf;

/** CRC-32/ISO-HDLC */
public class Crc32ChecksumService implements ChecksumService<ByteBuf, Integer> {

  private static final int[] CRC_TABLE = new int[256];

  static {
    for (int i = 0; i < 256; i++) {
      int c = i;
      for (int j = 0; j < 8; j++) {
        if ((c & 1) != 0) {
          c = 0xEDB88320 ^ (c >>> 1);
        } else {
          c >>>= 1;
        }
      }
      CRC_TABLE[i] = c;
    }
  }

  @Override
  public Integer calc(ByteBuf buf) {
    int crc = 0xFFFFFFFF;
    int readerIndex = buf.readerIndex();
    int readableBytes = buf.readableBytes();

    for (int i = 0; i < readableBytes; i++) {
      int b = buf.getUnsignedByte(readerIndex + i);
      crc = CRC_TABLE[(crc ^ b) & 0xFF] ^ (crc >>> 8);
    }

    return crc ^ 0xFFFFFFFF;
  }

  @Override
  public String algorithm() {
    return ChecksumAlgorithms.CRC32;
  }
}
".

(* codec/src/main/java/com/finproto/codec/SseBinChecksumService.java *)
Definition text_SseBinChecksumService : text :=
"package com.finproto.codec;

import io.netty.buffer.ByteBuf;

/**
 * uint32 CalcChecksum(const char* buffer, uint32 len) { uint8 checksum = 0; uint32 i = 0; for (i =
 * 0; i < len; i++) { checksum += (uint8)buffer[i]; } return (uint32)checksum; }
 */
public class SseBinChecksumService implements ChecksumService<ByteBuf, Integer> {

  @Override
  public Integer calc(ByteBuf buf) {
    int readerIndex = buf.readerIndex();
    int readableBytes = buf.readableBytes();
    int checksum = 0;
    for (int i = 0; i < readableBytes; i++) {
      int b = buf.getUnsignedByte(readerIndex + i);
      checksum = (checksum + b) & 0xFF;
    }

    return checksum;
  }

  @Override
  public String algorithm() {
    return ChecksumAlgorithms.SSE_BIN;
  }
}
".

(* codec/src/main/java/com/finproto/codec/SzseBinChecksumService.java *)
Definition text_SzseBinChecksumService : text :=
"package com.finproto.codec;

import io.netty.buffer.ByteBuf;

/**
 * uint32 GenerateCheckSum( char *buf, uint32 bufLen ) { long idx; uint32 cks; for( idx = 0L, cks =
 * 0; idx < bufLen; cks += (uint32)buf[ idx++ ] ); return （cks % 256 ); }
 */
public class SzseBinChecksumService implements ChecksumService<ByteBuf, Integer> {

  @Override
  public Integer calc(ByteBuf buf) {
    int readerIndex = buf.readerIndex();
    int readableBytes = buf.readableBytes();

    long sum = 0;
    for (int i = 0; i < readableBytes; i++) {
      sum += buf.getUnsignedByte(readerIndex + i);
    }

    return (int) (sum % 256);
  }

  @Override
  public String algorithm() {
    return ChecksumAlgorithms.SZSE_BIN;
  }
}
".

