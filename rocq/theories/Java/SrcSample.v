(* GENERATED by tools/mksrc.py: the files of /repo/sample-bin/src/main/java, verbatim. *)
From Verif.Java Require Import Text.
Open Scope text_scope.

(* sample-bin/src/main/java/com/finproto/sample/messages/BasicPacket.java *)
Definition text_sample_BasicPacket : text :=
"// Code generated by fin-protoc. DO NOT EDIT.
package com.finproto.sample.messages;

import com.finproto.codec.BinaryCodec;
import io.netty.buffer.ByteBuf;
import java.util.ArrayList;
import java.util.List;
import java.util.Objects;

public class BasicPacket implements BinaryCodec {
  private byte fieldI8;
  private short fieldI16;
  private int fieldI32;
  private long fieldI64;
  private String fieldChar;
  private byte fieldU8;
  private short fieldU16;
  private int fieldU32;
  private long fieldU64;
  private float fieldF32;
  private double fieldF64;
  private List<Byte> fieldI8List;
  private List<Short> fieldI16List;
  private List<Integer> fieldI32List;
  private List<Long> fieldI64List;
  private List<String> fieldCharList;
  private List<Byte> fieldU8List;
  private List<Short> fieldU16List;
  private List<Integer> fieldU32List;
  private List<Long> fieldU64List;
  private List<Float> fieldF32List;
  private List<Double> fieldF64List;

  public byte getFieldI8() {
    return this.fieldI8;
  }

  public void setFieldI8(byte fieldI8) {
    this.fieldI8 = fieldI8;
  }

  public short getFieldI16() {
    return this.fieldI16;
  }

  public void setFieldI16(short fieldI16) {
    this.fieldI16 = fieldI16;
  }

  public int getFieldI32() {
    return this.fieldI32;
  }

  public void setFieldI32(int fieldI32) {
    this.fieldI32 = fieldI32;
  }

  public long getFieldI64() {
    return this.fieldI64;
  }

  public void setFieldI64(long fieldI64) {
    this.fieldI64 = fieldI64;
  }

  public String getFieldChar() {
    return this.fieldChar;
  }

  public void setFieldChar(String fieldChar) {
    this.fieldChar = fieldChar;
  }

  public byte getFieldU8() {
    return this.fieldU8;
  }

  public void setFieldU8(byte fieldU8) {
    this.fieldU8 = fieldU8;
  }

  public short getFieldU16() {
    return this.fieldU16;
  }

  public void setFieldU16(short fieldU16) {
    this.fieldU16 = fieldU16;
  }

  public int getFieldU32() {
    return this.fieldU32;
  }

  public void setFieldU32(int fieldU32) {
    this.fieldU32 = fieldU32;
  }

  public long getFieldU64() {
    return this.fieldU64;
  }

  public void setFieldU64(long fieldU64) {
    this.fieldU64 = fieldU64;
  }

  public float getFieldF32() {
    return this.fieldF32;
  }

  public void setFieldF32(float fieldF32) {
    this.fieldF32 = fieldF32;
  }

  public double getFieldF64() {
    return this.fieldF64;
  }

  public void setFieldF64(double fieldF64) {
    this.fieldF64 = fieldF64;
  }

  public List<Byte> getFieldI8List() {
    return this.fieldI8List;
  }

  public void setFieldI8List(List<Byte> fieldI8List) {
    this.fieldI8List = fieldI8List;
  }

  public List<Short> getFieldI16List() {
    return this.fieldI16List;
  }

  public void setFieldI16List(List<Short> fieldI16List) {
    this.fieldI16List = fieldI16List;
  }

  public List<Integer> getFieldI32List() {
    return this.fieldI32List;
  }

  public void setFieldI32List(List<Integer> fieldI32List) {
    this.fieldI32List = fieldI32List;
  }

  public List<Long> getFieldI64List() {
    return this.fieldI64List;
  }

  public void setFieldI64List(List<Long> fieldI64List) {
    this.fieldI64List = fieldI64List;
  }

  public List<String> getFieldCharList() {
    return this.fieldCharList;
  }

  public void setFieldCharList(List<String> fieldCharList) {
    this.fieldCharList = fieldCharList;
  }

  public List<Byte> getFieldU8List() {
    return this.fieldU8List;
  }

  public void setFieldU8List(List<Byte> fieldU8List) {
    this.fieldU8List = fieldU8List;
  }

  public List<Short> getFieldU16List() {
    return this.fieldU16List;
  }

  public void setFieldU16List(List<Short> fieldU16List) {
    this.fieldU16List = fieldU16List;
  }

  public List<Integer> getFieldU32List() {
    return this.fieldU32List;
  }

  public void setFieldU32List(List<Integer> fieldU32List) {
    this.fieldU32List = fieldU32List;
  }

  public List<Long> getFieldU64List() {
    return this.fieldU64List;
  }

  public void setFieldU64List(List<Long> fieldU64List) {
    this.fieldU64List = fieldU64List;
  }

  public List<Float> getFieldF32List() {
    return this.fieldF32List;
  }

  public void setFieldF32List(List<Float> fieldF32List) {
    this.fieldF32List = fieldF32List;
  }

  public List<Double> getFieldF64List() {
    return this.fieldF64List;
  }

  public void setFieldF64List(List<Double> fieldF64List) {
    this.fieldF64List = fieldF64List;
  }

  @Override
  public void encode(ByteBuf byteBuf) {
    byteBuf.writeByte(this.fieldI8);
    byteBuf.writeShortLE(this.fieldI16);
    byteBuf.writeIntLE(this.fieldI32);
    byteBuf.writeLongLE(this.fieldI64);
    writeFixedString(byteBuf, this.fieldChar, 1, '0', true);
    byteBuf.writeByte(this.fieldU8);
    byteBuf.writeShortLE(this.fieldU16);
    byteBuf.writeIntLE(this.fieldU32);
    byteBuf.writeLongLE(this.fieldU64);
    byteBuf.writeFloatLE(this.fieldF32);
    byteBuf.writeDoubleLE(this.fieldF64);
    if (null == this.fieldI8List || this.fieldI8List.size() == 0) {
      byteBuf.writeShort(0);
    } else {
      byteBuf.writeShortLE((short) this.fieldI8List.size());
      for (int i = 0; i < this.fieldI8List.size(); i++) {
        byteBuf.writeByte(this.fieldI8List.get(i));
      }
    }
    if (null == this.fieldI16List || this.fieldI16List.size() == 0) {
      byteBuf.writeShort(0);
    } else {
      byteBuf.writeShortLE((short) this.fieldI16List.size());
      for (int i = 0; i < this.fieldI16List.size(); i++) {
        byteBuf.writeShortLE(this.fieldI16List.get(i));
      }
    }
    if (null == this.fieldI32List || this.fieldI32List.size() == 0) {
      byteBuf.writeShort(0);
    } else {
      byteBuf.writeShortLE((short) this.fieldI32List.size());
      for (int i = 0; i < this.fieldI32List.size(); i++) {
        byteBuf.writeIntLE(this.fieldI32List.get(i));
      }
    }
    if (null == this.fieldI64List || this.fieldI64List.size() == 0) {
      byteBuf.writeShort(0);
    } else {
      byteBuf.writeShortLE((short) this.fieldI64List.size());
      for (int i = 0; i < this.fieldI64List.size(); i++) {
        byteBuf.writeLongLE(this.fieldI64List.get(i));
      }
    }
    if (null == this.fieldCharList || this.fieldCharList.size() == 0) {
      byteBuf.writeShort(0);
    } else {
      byteBuf.writeShortLE((short) this.fieldCharList.size());
      for (int i = 0; i < this.fieldCharList.size(); i++) {
        writeFixedString(byteBuf, this.fieldCharList.get(i), 1, '0', true);
      }
    }
    if (null == this.fieldU8List || this.fieldU8List.size() == 0) {
      byteBuf.writeShort(0);
    } else {
      byteBuf.writeShortLE((short) this.fieldU8List.size());
      for (int i = 0; i < this.fieldU8List.size(); i++) {
        byteBuf.writeByte(this.fieldU8List.get(i));
      }
    }
    if (null == this.fieldU16List || this.fieldU16List.size() == 0) {
      byteBuf.writeShort(0);
    } else {
      byteBuf.writeShortLE((short) this.fieldU16List.size());
      for (int i = 0; i < this.fieldU16List.size(); i++) {
        byteBuf.writeShortLE(this.fieldU16List.get(i));
      }
    }
    if (null == this.fieldU32List || this.fieldU32List.size() == 0) {
      byteBuf.writeShort(0);
    } else {
      byteBuf.writeShortLE((short) this.fieldU32List.size());
      for (int i = 0; i < this.fieldU32List.size(); i++) {
        byteBuf.writeIntLE(this.fieldU32List.get(i));
      }
    }
    if (null == this.fieldU64List || this.fieldU64List.size() == 0) {
      byteBuf.writeShort(0);
    } else {
      byteBuf.writeShortLE((short) this.fieldU64List.size());
      for (int i = 0; i < this.fieldU64List.size(); i++) {
        byteBuf.writeLongLE(this.fieldU64List.get(i));
      }
    }
    if (null == this.fieldF32List || this.fieldF32List.size() == 0) {
      byteBuf.writeShort(0);
    } else {
      byteBuf.writeShortLE((short) this.fieldF32List.size());
      for (int i = 0; i < this.fieldF32List.size(); i++) {
        byteBuf.writeFloatLE(this.fieldF32List.get(i));
      }
    }
    if (null == this.fieldF64List || this.fieldF64List.size() == 0) {
      byteBuf.writeShort(0);
    } else {
      byteBuf.writeShortLE((short) this.fieldF64List.size());
      for (int i = 0; i < this.fieldF64List.size(); i++) {
        byteBuf.writeDoubleLE(this.fieldF64List.get(i));
      }
    }
  }

  @Override
  public void decode(ByteBuf byteBuf) {
    this.fieldI8 = byteBuf.readByte();
    this.fieldI16 = byteBuf.readShortLE();
    this.fieldI32 = byteBuf.readIntLE();
    this.fieldI64 = byteBuf.readLongLE();
    this.fieldChar = readFixedString(byteBuf, 1, '0', true);
    this.fieldU8 = byteBuf.readByte();
    this.fieldU16 = byteBuf.readShortLE();
    this.fieldU32 = byteBuf.readIntLE();
    this.fieldU64 = byteBuf.readLongLE();
    this.fieldF32 = byteBuf.readFloatLE();
    this.fieldF64 = byteBuf.readDoubleLE();
    short fieldI8ListSize = byteBuf.readShortLE();
    if (fieldI8ListSize > 0) {
      this.fieldI8List = new ArrayList<>();
      for (int i = 0; i < fieldI8ListSize; i++) {
        this.fieldI8List.add(byteBuf.readByte());
      }
    }
    short fieldI16ListSize = byteBuf.readShortLE();
    if (fieldI16ListSize > 0) {
      this.fieldI16List = new ArrayList<>();
      for (int i = 0; i < fieldI16ListSize; i++) {
        this.fieldI16List.add(byteBuf.readShortLE());
      }
    }
    short fieldI32ListSize = byteBuf.readShortLE();
    if (fieldI32ListSize > 0) {
      this.fieldI32List = new ArrayList<>();
      for (int i = 0; i < fieldI32ListSize; i++) {
        this.fieldI32List.add(byteBuf.readIntLE());
      }
    }
    short fieldI64ListSize = byteBuf.readShortLE();
    if (fieldI64ListSize > 0) {
      this.fieldI64List = new ArrayList<>();
      for (int i = 0; i < fieldI64ListSize; i++) {
        this.fieldI64List.add(byteBuf.readLongLE());
      }
    }
    short fieldCharListSize = byteBuf.readShortLE();
    if (fieldCharListSize > 0) {
      this.fieldCharList = new ArrayList<>();
      for (int i = 0; i < fieldCharListSize; i++) {
        this.fieldCharList.add(readFixedString(byteBuf, 1, '0', true));
      }
    }
    short fieldU8ListSize = byteBuf.readShortLE();
    if (fieldU8ListSize > 0) {
      this.fieldU8List = new ArrayList<>();
      for (int i = 0; i < fieldU8ListSize; i++) {
        this.fieldU8List.add(byteBuf.readByte());
      }
    }
    short fieldU16ListSize = byteBuf.readShortLE();
    if (fieldU16ListSize > 0) {
      this.fieldU16List = new ArrayList<>();
      for (int i = 0; i < fieldU16ListSize; i++) {
        this.fieldU16List.add(byteBuf.readShortLE());
      }
    }
    short fieldU32ListSize = byteBuf.readShortLE();
    if (fieldU32ListSize > 0) {
      this.fieldU32List = new ArrayList<>();
      for (int i = 0; i < fieldU32ListSize; i++) {
        this.fieldU32List.add(byteBuf.readIntLE());
      }
    }
    short fieldU64ListSize = byteBuf.readShortLE();
    if (fieldU64ListSize > 0) {
      this.fieldU64List = new ArrayList<>();
      for (int i = 0; i < fieldU64ListSize; i++) {
        this.fieldU64List.add(byteBuf.readLongLE());
      }
    }
    short fieldF32ListSize = byteBuf.readShortLE();
    if (fieldF32ListSize > 0) {
      this.fieldF32List = new ArrayList<>();
      for (int i = 0; i < fieldF32ListSize; i++) {
        this.fieldF32List.add(byteBuf.readFloatLE());
      }
    }
    short fieldF64ListSize = byteBuf.readShortLE();
    if (fieldF64ListSize > 0) {
      this.fieldF64List = new ArrayList<>();
      for (int i = 0; i < fieldF64ListSize; i++) {
        this.fieldF64List.add(byteBuf.readDoubleLE());
      }
    }
  }

  @Override
  public int hashCode() {
    return Objects.hash(
        fieldI8,
        fieldI16,
        fieldI32,
        fieldI64,
        fieldChar,
        fieldU8,
        fieldU16,
        fieldU32,
        fieldU64,
        fieldF32,
        fieldF64,
        fieldI8List,
        fieldI16List,
        fieldI32List,
        fieldI64List,
        fieldCharList,
        fieldU8List,
        fieldU16List,
        fieldU32List,
        fieldU64List,
        fieldF32List,
        fieldF64List);
  }

  @Override
  public boolean equals(Object obj) {
    if (this == obj) {
      return true;
    }
    if (null == obj || getClass() != obj.getClass()) {
      return false;
    }
    BasicPacket orther_ = (BasicPacket) obj;
    return Objects.equals(fieldI8, orther_.fieldI8)
        && Objects.equals(fieldI16, orther_.fieldI16)
        && Objects.equals(fieldI32, orther_.fieldI32)
        && Objects.equals(fieldI64, orther_.fieldI64)
        && Objects.equals(fieldChar, orther_.fieldChar)
        && Objects.equals(fieldU8, orther_.fieldU8)
        && Objects.equals(fieldU16, orther_.fieldU16)
        && Objects.equals(fieldU32, orther_.fieldU32)
        && Objects.equals(fieldU64, orther_.fieldU64)
        && Objects.equals(fieldF32, orther_.fieldF32)
        && Objects.equals(fieldF64, orther_.fieldF64)
        && Objects.equals(fieldI8List, orther_.fieldI8List)
        && Objects.equals(fieldI16List, orther_.fieldI16List)
        && Objects.equals(fieldI32List, orther_.fieldI32List)
        && Objects.equals(fieldI64List, orther_.fieldI64List)
        && Objects.equals(fieldCharList, orther_.fieldCharList)
        && Objects.equals(fieldU8List, orther_.fieldU8List)
        && Objects.equals(fieldU16List, orther_.fieldU16List)
        && Objects.equals(fieldU32List, orther_.fieldU32List)
        && Objects.equals(fieldU64List, orther_.fieldU64List)
        && Objects.equals(fieldF32List, orther_.fieldF32List)
        && Objects.equals(fieldF64List, orther_.fieldF64List);
  }

  @Override
  public String toString() {
    return ""BasicPacket [""
        + ""fieldI8=""
        + this.fieldI8
        + "", fieldI16=""
        + this.fieldI16
        + "", fieldI32=""
        + this.fieldI32
        + "", fieldI64=""
        + this.fieldI64
        + "", fieldChar=""
        + this.fieldChar
        + "", fieldU8=""
        + this.fieldU8
        + "", fieldU16=""
        + this.fieldU16
        + "", fieldU32=""
        + this.fieldU32
        + "", fieldU64=""
        + this.fieldU64
        + "", fieldF32=""
        + this.fieldF32
        + "", fieldF64=""
        + this.fieldF64
        + "", fieldI8List=""
        + this.fieldI8List
        + "", fieldI16List=""
        + this.fieldI16List
        + "", fieldI32List=""
        + this.fieldI32List
        + "", fieldI64List=""
        + this.fieldI64List
        + "", fieldCharList=""
        + this.fieldCharList
        + "", fieldU8List=""
        + this.fieldU8List
        + "", fieldU16List=""
        + this.fieldU16List
        + "", fieldU32List=""
        + this.fieldU32List
        + "", fieldU64List=""
        + this.fieldU64List
        + "", fieldF32List=""
        + this.fieldF32List
        + "", fieldF64List=""
        + this.fieldF64List
        + ""]"";
  }
}
".

(* sample-bin/src/main/java/com/finproto/sample/messages/EmptyPacket.java *)
Definition text_sample_EmptyPacket : text :=
"// Code generated by fin-protoc. DO NOT EDIT.
package com.finproto.sample.messages;

import com.finproto.codec.BinaryCodec;
import io.netty.buffer.ByteBuf;

public class EmptyPacket implements BinaryCodec {

  @Override
  public void encode(ByteBuf byteBuf) {}

  @Override
  public void decode(ByteBuf byteBuf) {}

  @Override
  public int hashCode() {
    return this.hashCode();
  }

  @Override
  public boolean equals(Object obj) {
    if (this == obj) {
      return true;
    }
    if (null == obj || getClass() != obj.getClass()) {
      return false;
    }
    return true;
  }

  @Override
  public String toString() {
    return ""EmptyPacket []"";
  }
}
".

(* sample-bin/src/main/java/com/finproto/sample/messages/NestedPacket.java *)
Definition text_sample_NestedPacket : text :=
"// Code generated by fin-protoc. DO NOT EDIT.
package com.finproto.sample.messages;

import com.finproto.codec.BinaryCodec;
import io.netty.buffer.ByteBuf;
import java.util.ArrayList;
import java.util.List;
import java.util.Objects;

public class NestedPacket implements BinaryCodec {
  private SubPacket subPacket;
  private List<SubPacket> subPacketList;
  private InerPacket inerPacket;

  public SubPacket getSubPacket() {
    return this.subPacket;
  }

  public void setSubPacket(SubPacket subPacket) {
    this.subPacket = subPacket;
  }

  public List<SubPacket> getSubPacketList() {
    return this.subPacketList;
  }

  public void setSubPacketList(List<SubPacket> subPacketList) {
    this.subPacketList = subPacketList;
  }

  public InerPacket getInerPacket() {
    return this.inerPacket;
  }

  public void setInerPacket(InerPacket inerPacket) {
    this.inerPacket = inerPacket;
  }

  @Override
  public void encode(ByteBuf byteBuf) {
    this.subPacket.encode(byteBuf);
    if (null == this.subPacketList || this.subPacketList.size() == 0) {
      byteBuf.writeShort(0);
    } else {
      byteBuf.writeShortLE((short) this.subPacketList.size());
      for (int i = 0; i < this.subPacketList.size(); i++) {
        this.subPacketList.get(i).encode(byteBuf);
      }
    }
    this.inerPacket.encode(byteBuf);
  }

  @Override
  public void decode(ByteBuf byteBuf) {
    if (null == this.subPacket) {
      this.subPacket = new SubPacket();
    }
    this.subPacket.decode(byteBuf);
    short subPacketListSize = byteBuf.readShortLE();
    if (subPacketListSize > 0) {
      this.subPacketList = new ArrayList<>();
      for (int i = 0; i < subPacketListSize; i++) {
        SubPacket subPacketList_ = new SubPacket();
        subPacketList_.decode(byteBuf);
        this.subPacketList.add(subPacketList_);
      }
    }
    if (null == this.inerPacket) {
      this.inerPacket = new InerPacket();
    }
    this.inerPacket.decode(byteBuf);
  }

  @Override
  public int hashCode() {
    return Objects.hash(subPacket, subPacketList, inerPacket);
  }

  @Override
  public boolean equals(Object obj) {
    if (this == obj) {
      return true;
    }
    if (null == obj || getClass() != obj.getClass()) {
      return false;
    }
    NestedPacket orther_ = (NestedPacket) obj;
    return Objects.equals(subPacket, orther_.subPacket)
        && Objects.equals(subPacketList, orther_.subPacketList)
        && Objects.equals(inerPacket, orther_.inerPacket);
  }

  @Override
  public String toString() {
    return ""NestedPacket [""
        + ""subPacket=""
        + this.subPacket
        + "", subPacketList=""
        + this.subPacketList
        + "", inerPacket=""
        + this.inerPacket
        + ""]"";
  }

  // Code generated by fin-protoc. DO NOT EDIT.
  public static class InerPacket implements BinaryCodec {
    private int fieldU32;
    private List<Short> fieldI16List;

    public int getFieldU32() {
      return this.fieldU32;
    }

    public void setFieldU32(int fieldU32) {
      this.fieldU32 = fieldU32;
    }

    public List<Short> getFieldI16List() {
      return this.fieldI16List;
    }

    public void setFieldI16List(List<Short> fieldI16List) {
      this.fieldI16List = fieldI16List;
    }

    @Override
    public void encode(ByteBuf byteBuf) {
      byteBuf.writeIntLE(this.fieldU32);
      if (null == this.fieldI16List || this.fieldI16List.size() == 0) {
        byteBuf.writeShort(0);
      } else {
        byteBuf.writeShortLE((short) this.fieldI16List.size());
        for (int i = 0; i < this.fieldI16List.size(); i++) {
          byteBuf.writeShortLE(this.fieldI16List.get(i));
        }
      }
    }

    @Override
    public void decode(ByteBuf byteBuf) {
      this.fieldU32 = byteBuf.readIntLE();
      short fieldI16ListSize = byteBuf.readShortLE();
      if (fieldI16ListSize > 0) {
        this.fieldI16List = new ArrayList<>();
        for (int i = 0; i < fieldI16ListSize; i++) {
          this.fieldI16List.add(byteBuf.readShortLE());
        }
      }
    }

    @Override
    public int hashCode() {
      return Objects.hash(fieldU32, fieldI16List);
    }

    @Override
    public boolean equals(Object obj) {
      if (this == obj) {
        return true;
      }
      if (null == obj || getClass() != obj.getClass()) {
        return false;
      }
      InerPacket orther_ = (InerPacket) obj;
      return Objects.equals(fieldU32, orther_.fieldU32)
          && Objects.equals(fieldI16List, orther_.fieldI16List);
    }

    @Override
    public String toString() {
      return ""InerPacket [""
          + ""fieldU32=""
          + this.fieldU32
          + "", fieldI16List=""
          + this.fieldI16List
          + ""]"";
    }
  }
}
".

(* sample-bin/src/main/java/com/finproto/sample/messages/RootPacket.java *)
Definition text_sample_RootPacket : text :=
"// Code generated by fin-protoc. DO NOT EDIT.
package com.finproto.sample.messages;

import com.finproto.codec.BinaryCodec;
import com.finproto.codec.ChecksumService;
import com.finproto.codec.ChecksumServiceFactory;
import io.netty.buffer.ByteBuf;
import java.util.HashMap;
import java.util.Map;
import java.util.Objects;
import java.util.function.Supplier;

public class RootPacket implements BinaryCodec {
  private short msgType;
  private int payloadLen;
  private BinaryCodec payload;
  private int checksum;

  public short getMsgType() {
    return this.msgType;
  }

  public void setMsgType(short msgType) {
    this.msgType = msgType;
  }

  public int getPayloadLen() {
    return this.payloadLen;
  }

  public void setPayloadLen(int payloadLen) {
    this.payloadLen = payloadLen;
  }

  public BinaryCodec getPayload() {
    return this.payload;
  }

  public void setPayload(BinaryCodec payload) {
    this.payload = payload;
  }

  public int getChecksum() {
    return this.checksum;
  }

  public void setChecksum(int checksum) {
    this.checksum = checksum;
  }

  @Override
  public void encode(ByteBuf byteBuf) {
    byteBuf.writeShortLE(this.msgType);
    int payloadLenPos = byteBuf.writerIndex();
    byteBuf.writeIntLE(0);

    int payloadStart = byteBuf.writerIndex();
    if (this.payload != null) {
      this.payload.encode(byteBuf);
    }
    int payloadEnd = byteBuf.writerIndex();
    this.payloadLen = (int) (payloadEnd - payloadStart);
    byteBuf.setIntLE(payloadLenPos, this.payloadLen);
    ChecksumService<ByteBuf, Integer> checksumService =
        ChecksumServiceFactory.getInstance().getChecksumService(""CRC32"");
    if (checksumService != null) {
      this.checksum = (int) checksumService.calc(byteBuf);
    }
    byteBuf.writeIntLE(this.checksum);
  }

  @Override
  public void decode(ByteBuf byteBuf) {
    this.msgType = byteBuf.readShortLE();
    this.payloadLen = byteBuf.readIntLE();
    this.payload = PayloadMessageFactory.getInstance().create(this.msgType);
    this.payload.decode(byteBuf);
    this.checksum = byteBuf.readIntLE();
  }

  @Override
  public int hashCode() {
    return Objects.hash(msgType, payloadLen, payload, checksum);
  }

  @Override
  public boolean equals(Object obj) {
    if (this == obj) {
      return true;
    }
    if (null == obj || getClass() != obj.getClass()) {
      return false;
    }
    RootPacket orther_ = (RootPacket) obj;
    return Objects.equals(msgType, orther_.msgType)
        && Objects.equals(payloadLen, orther_.payloadLen)
        && Objects.equals(payload, orther_.payload)
        && Objects.equals(checksum, orther_.checksum);
  }

  @Override
  public String toString() {
    return ""RootPacket [""
        + ""msgType=""
        + this.msgType
        + "", payloadLen=""
        + this.payloadLen
        + "", payload=""
        + this.payload
        + "", checksum=""
        + this.checksum
        + ""]"";
  }

  public static enum PayloadMessageFactory {
    INSTANCE;
    private final Map<Short, Supplier<BinaryCodec>> payloadMap = new HashMap<>();

    static {
      getInstance().register((short) 1, BasicPacket::new);
      getInstance().register((short) 2, StringPacket::new);
      getInstance().register((short) 3, NestedPacket::new);
      getInstance().register((short) 4, EmptyPacket::new);
    }

    public BinaryCodec create(Short msgType) {
      Supplier<BinaryCodec> supplier = payloadMap.get(msgType);
      if (null == supplier) {
        throw new IllegalArgumentException(""Unsupported MsgType:"" + msgType);
      }
      return supplier.get();
    }

    public void register(Short msgType, Supplier<BinaryCodec> supplier) {
      payloadMap.put(msgType, supplier);
    }

    public boolean remove(Short msgType) {
      return null != payloadMap.remove(msgType);
    }

    public static PayloadMessageFactory getInstance() {
      return INSTANCE;
    }
  }
}
".

(* sample-bin/src/main/java/com/finproto/sample/messages/StringPacket.java *)
Definition text_sample_StringPacket : text :=
"// Code generated by fin-protoc. DO NOT EDIT.
package com.finproto.sample.messages;

import com.finproto.codec.BinaryCodec;
import io.netty.buffer.ByteBuf;
import io.netty.util.internal.StringUtil;
import java.nio.charset.StandardCharsets;
import java.util.ArrayList;
import java.util.List;
import java.util.Objects;

public class StringPacket implements BinaryCodec {
  private String fieldDynamicString;
  private String fieldDynamicString1;
  private String fieldFixedString1;
  private String fieldFixedString10;
  private String fieldFixedString10Pad;
  private String fieldFixedString10PadWithNullTerminator;
  private List<String> fieldDynamicStringList;
  private List<String> fieldDynamicString1List;
  private List<String> fieldFixedString1List;
  private List<String> fieldFixedString10List;
  private List<String> fieldFixedString10ListPad;
  private List<String> fieldFixedString10PadWithNullTerminatorList;

  public String getFieldDynamicString() {
    return this.fieldDynamicString;
  }

  public void setFieldDynamicString(String fieldDynamicString) {
    this.fieldDynamicString = fieldDynamicString;
  }

  public String getFieldDynamicString1() {
    return this.fieldDynamicString1;
  }

  public void setFieldDynamicString1(String fieldDynamicString1) {
    this.fieldDynamicString1 = fieldDynamicString1;
  }

  public String getFieldFixedString1() {
    return this.fieldFixedString1;
  }

  public void setFieldFixedString1(String fieldFixedString1) {
    this.fieldFixedString1 = fieldFixedString1;
  }

  public String getFieldFixedString10() {
    return this.fieldFixedString10;
  }

  public void setFieldFixedString10(String fieldFixedString10) {
    this.fieldFixedString10 = fieldFixedString10;
  }

  public String getFieldFixedString10Pad() {
    return this.fieldFixedString10Pad;
  }

  public void setFieldFixedString10Pad(String fieldFixedString10Pad) {
    this.fieldFixedString10Pad = fieldFixedString10Pad;
  }

  public String getFieldFixedString10PadWithNullTerminator() {
    return this.fieldFixedString10PadWithNullTerminator;
  }

  public void setFieldFixedString10PadWithNullTerminator(
      String fieldFixedString10PadWithNullTerminator) {
    this.fieldFixedString10PadWithNullTerminator = fieldFixedString10PadWithNullTerminator;
  }

  public List<String> getFieldDynamicStringList() {
    return this.fieldDynamicStringList;
  }

  public void setFieldDynamicStringList(List<String> fieldDynamicStringList) {
    this.fieldDynamicStringList = fieldDynamicStringList;
  }

  public List<String> getFieldDynamicString1List() {
    return this.fieldDynamicString1List;
  }

  public void setFieldDynamicString1List(List<String> fieldDynamicString1List) {
    this.fieldDynamicString1List = fieldDynamicString1List;
  }

  public List<String> getFieldFixedString1List() {
    return this.fieldFixedString1List;
  }

  public void setFieldFixedString1List(List<String> fieldFixedString1List) {
    this.fieldFixedString1List = fieldFixedString1List;
  }

  public List<String> getFieldFixedString10List() {
    return this.fieldFixedString10List;
  }

  public void setFieldFixedString10List(List<String> fieldFixedString10List) {
    this.fieldFixedString10List = fieldFixedString10List;
  }

  public List<String> getFieldFixedString10ListPad() {
    return this.fieldFixedString10ListPad;
  }

  public void setFieldFixedString10ListPad(List<String> fieldFixedString10ListPad) {
    this.fieldFixedString10ListPad = fieldFixedString10ListPad;
  }

  public List<String> getFieldFixedString10PadWithNullTerminatorList() {
    return this.fieldFixedString10PadWithNullTerminatorList;
  }

  public void setFieldFixedString10PadWithNullTerminatorList(
      List<String> fieldFixedString10PadWithNullTerminatorList) {
    this.fieldFixedString10PadWithNullTerminatorList = fieldFixedString10PadWithNullTerminatorList;
  }

  @Override
  public void encode(ByteBuf byteBuf) {
    if (StringUtil.isNullOrEmpty(this.fieldDynamicString)) {
      byteBuf.writeShort(0);
    } else {
      byte[] bytes = this.fieldDynamicString.getBytes(StandardCharsets.UTF_8);
      byteBuf.writeShortLE(bytes.length);
      byteBuf.writeBytes(bytes);
    }

    if (StringUtil.isNullOrEmpty(this.fieldDynamicString1)) {
      byteBuf.writeShort(0);
    } else {
      byte[] bytes = this.fieldDynamicString1.getBytes(StandardCharsets.UTF_8);
      byteBuf.writeShortLE(bytes.length);
      byteBuf.writeBytes(bytes);
    }

    writeFixedString(byteBuf, this.fieldFixedString1, 1, '0', true);
    writeFixedString(byteBuf, this.fieldFixedString10, 10, '0', true);
    writeFixedString(byteBuf, this.fieldFixedString10Pad, 10, ' ', true);
    writeFixedString(byteBuf, this.fieldFixedString10PadWithNullTerminator, 10, '\0', false);
    if (null == this.fieldDynamicStringList || this.fieldDynamicStringList.size() == 0) {
      byteBuf.writeShort(0);
    } else {
      byteBuf.writeShortLE((short) this.fieldDynamicStringList.size());
      for (int i = 0; i < this.fieldDynamicStringList.size(); i++) {
        if (StringUtil.isNullOrEmpty(this.fieldDynamicStringList.get(i))) {
          byteBuf.writeShort(0);
        } else {
          byte[] bytes = this.fieldDynamicStringList.get(i).getBytes(StandardCharsets.UTF_8);
          byteBuf.writeShortLE(bytes.length);
          byteBuf.writeBytes(bytes);
        }
      }
    }
    if (null == this.fieldDynamicString1List || this.fieldDynamicString1List.size() == 0) {
      byteBuf.writeShort(0);
    } else {
      byteBuf.writeShortLE((short) this.fieldDynamicString1List.size());
      for (int i = 0; i < this.fieldDynamicString1List.size(); i++) {
        if (StringUtil.isNullOrEmpty(this.fieldDynamicString1List.get(i))) {
          byteBuf.writeShort(0);
        } else {
          byte[] bytes = this.fieldDynamicString1List.get(i).getBytes(StandardCharsets.UTF_8);
          byteBuf.writeShortLE(bytes.length);
          byteBuf.writeBytes(bytes);
        }
      }
    }
    if (null == this.fieldFixedString1List || this.fieldFixedString1List.size() == 0) {
      byteBuf.writeShort(0);
    } else {
      byteBuf.writeShortLE((short) this.fieldFixedString1List.size());
      for (int i = 0; i < this.fieldFixedString1List.size(); i++) {
        writeFixedString(byteBuf, this.fieldFixedString1List.get(i), 1, '0', true);
      }
    }
    if (null == this.fieldFixedString10List || this.fieldFixedString10List.size() == 0) {
      byteBuf.writeShort(0);
    } else {
      byteBuf.writeShortLE((short) this.fieldFixedString10List.size());
      for (int i = 0; i < this.fieldFixedString10List.size(); i++) {
        writeFixedString(byteBuf, this.fieldFixedString10List.get(i), 10, '0', true);
      }
    }
    if (null == this.fieldFixedString10ListPad || this.fieldFixedString10ListPad.size() == 0) {
      byteBuf.writeShort(0);
    } else {
      byteBuf.writeShortLE((short) this.fieldFixedString10ListPad.size());
      for (int i = 0; i < this.fieldFixedString10ListPad.size(); i++) {
        writeFixedString(byteBuf, this.fieldFixedString10ListPad.get(i), 10, '0', false);
      }
    }
    if (null == this.fieldFixedString10PadWithNullTerminatorList
        || this.fieldFixedString10PadWithNullTerminatorList.size() == 0) {
      byteBuf.writeShort(0);
    } else {
      byteBuf.writeShortLE((short) this.fieldFixedString10PadWithNullTerminatorList.size());
      for (int i = 0; i < this.fieldFixedString10PadWithNullTerminatorList.size(); i++) {
        writeFixedString(
            byteBuf, this.fieldFixedString10PadWithNullTerminatorList.get(i), 10, '\0', false);
      }
    }
  }

  @Override
  public void decode(ByteBuf byteBuf) {
    short fieldDynamicStringLen = byteBuf.readShortLE();
    if (fieldDynamicStringLen > 0) {
      this.fieldDynamicString =
          byteBuf.readCharSequence(fieldDynamicStringLen, StandardCharsets.UTF_8).toString();
    }
    short fieldDynamicString1Len = byteBuf.readShortLE();
    if (fieldDynamicString1Len > 0) {
      this.fieldDynamicString1 =
          byteBuf.readCharSequence(fieldDynamicString1Len, StandardCharsets.UTF_8).toString();
    }
    this.fieldFixedString1 = readFixedString(byteBuf, 1, '0', true);
    this.fieldFixedString10 = readFixedString(byteBuf, 10, '0', true);
    this.fieldFixedString10Pad = readFixedString(byteBuf, 10, ' ', true);
    this.fieldFixedString10PadWithNullTerminator = readFixedString(byteBuf, 10, '\0', false);
    short fieldDynamicStringListSize = byteBuf.readShortLE();
    if (fieldDynamicStringListSize > 0) {
      this.fieldDynamicStringList = new ArrayList<>();
      for (int i = 0; i < fieldDynamicStringListSize; i++) {
        short fieldDynamicStringListLen = byteBuf.readShortLE();
        if (fieldDynamicStringListLen > 0) {
          this.fieldDynamicStringList.add(
              byteBuf
                  .readCharSequence(fieldDynamicStringListLen, StandardCharsets.UTF_8)
                  .toString());
        }
      }
    }
    short fieldDynamicString1ListSize = byteBuf.readShortLE();
    if (fieldDynamicString1ListSize > 0) {
      this.fieldDynamicString1List = new ArrayList<>();
      for (int i = 0; i < fieldDynamicString1ListSize; i++) {
        short fieldDynamicString1ListLen = byteBuf.readShortLE();
        if (fieldDynamicString1ListLen > 0) {
          this.fieldDynamicString1List.add(
              byteBuf
                  .readCharSequence(fieldDynamicString1ListLen, StandardCharsets.UTF_8)
                  .toString());
        }
      }
    }
    short fieldFixedString1ListSize = byteBuf.readShortLE();
    if (fieldFixedString1ListSize > 0) {
      this.fieldFixedString1List = new ArrayList<>();
      for (int i = 0; i < fieldFixedString1ListSize; i++) {
        this.fieldFixedString1List.add(readFixedString(byteBuf, 1, '0', true));
      }
    }
    short fieldFixedString10ListSize = byteBuf.readShortLE();
    if (fieldFixedString10ListSize > 0) {
      this.fieldFixedString10List = new ArrayList<>();
      for (int i = 0; i < fieldFixedString10ListSize; i++) {
        this.fieldFixedString10List.add(readFixedString(byteBuf, 10, '0', true));
      }
    }
    short fieldFixedString10ListPadSize = byteBuf.readShortLE();
    if (fieldFixedString10ListPadSize > 0) {
      this.fieldFixedString10ListPad = new ArrayList<>();
      for (int i = 0; i < fieldFixedString10ListPadSize; i++) {
        this.fieldFixedString10ListPad.add(readFixedString(byteBuf, 10, '0', false));
      }
    }
    short fieldFixedString10PadWithNullTerminatorListSize = byteBuf.readShortLE();
    if (fieldFixedString10PadWithNullTerminatorListSize > 0) {
      this.fieldFixedString10PadWithNullTerminatorList = new ArrayList<>();
      for (int i = 0; i < fieldFixedString10PadWithNullTerminatorListSize; i++) {
        this.fieldFixedString10PadWithNullTerminatorList.add(
            readFixedString(byteBuf, 10, '\0', false));
      }
    }
  }

  @Override
  public int hashCode() {
    return Objects.hash(
        fieldDynamicString,
        fieldDynamicString1,
        fieldFixedString1,
        fieldFixedString10,
        fieldFixedString10Pad,
        fieldFixedString10PadWithNullTerminator,
        fieldDynamicStringList,
        fieldDynamicString1List,
        fieldFixedString1List,
        fieldFixedString10List,
        fieldFixedString10ListPad,
        fieldFixedString10PadWithNullTerminatorList);
  }

  @Override
  public boolean equals(Object obj) {
    if (this == obj) {
      return true;
    }
    if (null == obj || getClass() != obj.getClass()) {
      return false;
    }
    StringPacket orther_ = (StringPacket) obj;
    return Objects.equals(fieldDynamicString, orther_.fieldDynamicString)
        && Objects.equals(fieldDynamicString1, orther_.fieldDynamicString1)
        && Objects.equals(fieldFixedString1, orther_.fieldFixedString1)
        && Objects.equals(fieldFixedString10, orther_.fieldFixedString10)
        && Objects.equals(fieldFixedString10Pad, orther_.fieldFixedString10Pad)
        && Objects.equals(
            fieldFixedString10PadWithNullTerminator,
            orther_.fieldFixedString10PadWithNullTerminator)
        && Objects.equals(fieldDynamicStringList, orther_.fieldDynamicStringList)
        && Objects.equals(fieldDynamicString1List, orther_.fieldDynamicString1List)
        && Objects.equals(fieldFixedString1List, orther_.fieldFixedString1List)
        && Objects.equals(fieldFixedString10List, orther_.fieldFixedString10List)
        && Objects.equals(fieldFixedString10ListPad, orther_.fieldFixedString10ListPad)
        && Objects.equals(
            fieldFixedString10PadWithNullTerminatorList,
            orther_.fieldFixedString10PadWithNullTerminatorList);
  }

  @Override
  public String toString() {
    return ""StringPacket [""
        + ""fieldDynamicString=""
        + this.fieldDynamicString
        + "", fieldDynamicString1=""
        + this.fieldDynamicString1
        + "", fieldFixedString1=""
        + this.fieldFixedString1
        + "", fieldFixedString10=""
        + this.fieldFixedString10
        + "", fieldFixedString10Pad=""
        + this.fieldFixedString10Pad
        + "", fieldFixedString10PadWithNullTerminator=""
        + this.fieldFixedString10PadWithNullTerminator
        + "", fieldDynamicStringList=""
        + this.fieldDynamicStringList
        + "", fieldDynamicString1List=""
        + this.fieldDynamicString1List
        + "", fieldFixedString1List=""
        + this.fieldFixedString1List
        + "", fieldFixedString10List=""
        + this.fieldFixedString10List
        + "", fieldFixedString10ListPad=""
        + this.fieldFixedString10ListPad
        + "", fieldFixedString10PadWithNullTerminatorList=""
        + this.fieldFixedString10PadWithNullTerminatorList
        + ""]"";
  }
}
".

(* sample-bin/src/main/java/com/finproto/sample/messages/SubPacket.java *)
Definition text_sample_SubPacket : text :=
"// Code generated by fin-protoc. DO NOT EDIT.
package com.finproto.sample.messages;

import com.finproto.codec.BinaryCodec;
import io.netty.buffer.ByteBuf;
import java.util.ArrayList;
import java.util.List;
import java.util.Objects;

public class SubPacket implements BinaryCodec {
  private int fieldU32;
  private List<Short> fieldI16List;

  public int getFieldU32() {
    return this.fieldU32;
  }

  public void setFieldU32(int fieldU32) {
    this.fieldU32 = fieldU32;
  }

  public List<Short> getFieldI16List() {
    return this.fieldI16List;
  }

  public void setFieldI16List(List<Short> fieldI16List) {
    this.fieldI16List = fieldI16List;
  }

  @Override
  public void encode(ByteBuf byteBuf) {
    byteBuf.writeIntLE(this.fieldU32);
    if (null == this.fieldI16List || this.fieldI16List.size() == 0) {
      byteBuf.writeShort(0);
    } else {
      byteBuf.writeShortLE((short) this.fieldI16List.size());
      for (int i = 0; i < this.fieldI16List.size(); i++) {
        byteBuf.writeShortLE(this.fieldI16List.get(i));
      }
    }
  }

  @Override
  public void decode(ByteBuf byteBuf) {
    this.fieldU32 = byteBuf.readIntLE();
    short fieldI16ListSize = byteBuf.readShortLE();
    if (fieldI16ListSize > 0) {
      this.fieldI16List = new ArrayList<>();
      for (int i = 0; i < fieldI16ListSize; i++) {
        this.fieldI16List.add(byteBuf.readShortLE());
      }
    }
  }

  @Override
  public int hashCode() {
    return Objects.hash(fieldU32, fieldI16List);
  }

  @Override
  public boolean equals(Object obj) {
    if (this == obj) {
      return true;
    }
    if (null == obj || getClass() != obj.getClass()) {
      return false;
    }
    SubPacket orther_ = (SubPacket) obj;
    return Objects.equals(fieldU32, orther_.fieldU32)
        && Objects.equals(fieldI16List, orther_.fieldI16List);
  }

  @Override
  public String toString() {
    return ""SubPacket [""
        + ""fieldU32=""
        + this.fieldU32
        + "", fieldI16List=""
        + this.fieldI16List
        + ""]"";
  }
}
".

