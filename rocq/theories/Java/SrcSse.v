(* GENERATED by tools/mksrc.py: the files of /repo/sse-bin/src/main/java, verbatim. *)
From Verif.Java Require Import Text.
Open Scope text_scope.

(* sse-bin/src/main/java/com/finproto/sse/bin/messages/CancelReject.java *)
Definition text_sse_CancelReject : text :=
"// Code generated by fin-protoc. DO NOT EDIT.
package com.finproto.sse.bin.messages;

import com.finproto.codec.BinaryCodec;
import io.netty.buffer.ByteBuf;
import java.util.Objects;

public class CancelReject implements BinaryCodec {
  private String pbu;
  private int setId;
  private long reportIndex;
  private int bizId;
  private String bizPbu;
  private String clOrdId;
  private String securityId;
  private String origClOrdId;
  private String branchId;
  private int cxlRejReason;
  private int tradeDate;
  private long transactTime;
  private String userInfo;

  public String getPbu() {
    return this.pbu;
  }

  public void setPbu(String pbu) {
    this.pbu = pbu;
  }

  public int getSetId() {
    return this.setId;
  }

  public void setSetId(int setId) {
    this.setId = setId;
  }

  public long getReportIndex() {
    return this.reportIndex;
  }

  public void setReportIndex(long reportIndex) {
    this.reportIndex = reportIndex;
  }

  public int getBizId() {
    return this.bizId;
  }

  public void setBizId(int bizId) {
    this.bizId = bizId;
  }

  public String getBizPbu() {
    return this.bizPbu;
  }

  public void setBizPbu(String bizPbu) {
    this.bizPbu = bizPbu;
  }

  public String getClOrdId() {
    return this.clOrdId;
  }

  public void setClOrdId(String clOrdId) {
    this.clOrdId = clOrdId;
  }

  public String getSecurityId() {
    return this.securityId;
  }

  public void setSecurityId(String securityId) {
    this.securityId = securityId;
  }

  public String getOrigClOrdId() {
    return this.origClOrdId;
  }

  public void setOrigClOrdId(String origClOrdId) {
    this.origClOrdId = origClOrdId;
  }

  public String getBranchId() {
    return this.branchId;
  }

  public void setBranchId(String branchId) {
    this.branchId = branchId;
  }

  public int getCxlRejReason() {
    return this.cxlRejReason;
  }

  public void setCxlRejReason(int cxlRejReason) {
    this.cxlRejReason = cxlRejReason;
  }

  public int getTradeDate() {
    return this.tradeDate;
  }

  public void setTradeDate(int tradeDate) {
    this.tradeDate = tradeDate;
  }

  public long getTransactTime() {
    return this.transactTime;
  }

  public void setTransactTime(long transactTime) {
    this.transactTime = transactTime;
  }

  public String getUserInfo() {
    return this.userInfo;
  }

  public void setUserInfo(String userInfo) {
    this.userInfo = userInfo;
  }

  @Override
  public void encode(ByteBuf byteBuf) {
    writeFixedString(byteBuf, this.pbu, 8);
    byteBuf.writeInt(this.setId);
    byteBuf.writeLong(this.reportIndex);
    byteBuf.writeInt(this.bizId);
    writeFixedString(byteBuf, this.bizPbu, 8);
    writeFixedString(byteBuf, this.clOrdId, 10);
    writeFixedString(byteBuf, this.securityId, 12);
    writeFixedString(byteBuf, this.origClOrdId, 10);
    writeFixedString(byteBuf, this.branchId, 8);
    byteBuf.writeInt(this.cxlRejReason);
    byteBuf.writeInt(this.tradeDate);
    byteBuf.writeLong(this.transactTime);
    writeFixedString(byteBuf, this.userInfo, 32);
  }

  @Override
  public void decode(ByteBuf byteBuf) {
    this.pbu = readFixedString(byteBuf, 8);
    this.setId = byteBuf.readInt();
    this.reportIndex = byteBuf.readLong();
    this.bizId = byteBuf.readInt();
    this.bizPbu = readFixedString(byteBuf, 8);
    this.clOrdId = readFixedString(byteBuf, 10);
    this.securityId = readFixedString(byteBuf, 12);
    this.origClOrdId = readFixedString(byteBuf, 10);
    this.branchId = readFixedString(byteBuf, 8);
    this.cxlRejReason = byteBuf.readInt();
    this.tradeDate = byteBuf.readInt();
    this.transactTime = byteBuf.readLong();
    this.userInfo = readFixedString(byteBuf, 32);
  }

  @Override
  public int hashCode() {
    return Objects.hash(
        pbu,
        setId,
        reportIndex,
        bizId,
        bizPbu,
        clOrdId,
        securityId,
        origClOrdId,
        branchId,
        cxlRejReason,
        tradeDate,
        transactTime,
        userInfo);
  }

  @Override
  public boolean equals(Object obj) {
    if (this == obj) {
      return true;
    }
    if (null == obj || getClass() != obj.getClass()) {
      return false;
    }
    CancelReject orther_ = (CancelReject) obj;
    return Objects.equals(pbu, orther_.pbu)
        && Objects.equals(setId, orther_.setId)
        && Objects.equals(reportIndex, orther_.reportIndex)
        && Objects.equals(bizId, orther_.bizId)
        && Objects.equals(bizPbu, orther_.bizPbu)
        && Objects.equals(clOrdId, orther_.clOrdId)
        && Objects.equals(securityId, orther_.securityId)
        && Objects.equals(origClOrdId, orther_.origClOrdId)
        && Objects.equals(branchId, orther_.branchId)
        && Objects.equals(cxlRejReason, orther_.cxlRejReason)
        && Objects.equals(tradeDate, orther_.tradeDate)
        && Objects.equals(transactTime, orther_.transactTime)
        && Objects.equals(userInfo, orther_.userInfo);
  }

  @Override
  public String toString() {
    return ""CancelReject [""
        + ""pbu=""
        + this.pbu
        + "", setId=""
        + this.setId
        + "", reportIndex=""
        + this.reportIndex
        + "", bizId=""
        + this.bizId
        + "", bizPbu=""
        + this.bizPbu
        + "", clOrdId=""
        + this.clOrdId
        + "", securityId=""
        + this.securityId
        + "", origClOrdId=""
        + this.origClOrdId
        + "", branchId=""
        + this.branchId
        + "", cxlRejReason=""
        + this.cxlRejReason
        + "", tradeDate=""
        + this.tradeDate
        + "", transactTime=""
        + this.transactTime
        + "", userInfo=""
        + this.userInfo
        + ""]"";
  }
}
".

(* sse-bin/src/main/java/com/finproto/sse/bin/messages/Confirm.java *)
Definition text_sse_Confirm : text :=
"// Code generated by fin-protoc. DO NOT EDIT.
package com.finproto.sse.bin.messages;

import com.finproto.codec.BinaryCodec;
import io.netty.buffer.ByteBuf;
import java.util.Objects;

public class Confirm implements BinaryCodec {
  private String pbu;
  private int setId;
  private long reportIndex;
  private int bizId;
  private String execType;
  private String bizPbu;
  private String clOrdId;
  private String securityId;
  private String account;
  private byte ownerType;
  private String side;
  private long price;
  private long orderQty;
  private long leavesQty;
  private long cxlQty;
  private String ordType;
  private String timeInForce;
  private String ordStatus;
  private String creditTag;
  private String origClOrdId;
  private String clearingFirm;
  private String branchId;
  private int ordRejReason;
  private String ordCnfmId;
  private String origOrdCnfmId;
  private int tradeDate;
  private long transactTime;
  private String userInfo;

  public String getPbu() {
    return this.pbu;
  }

  public void setPbu(String pbu) {
    this.pbu = pbu;
  }

  public int getSetId() {
    return this.setId;
  }

  public void setSetId(int setId) {
    this.setId = setId;
  }

  public long getReportIndex() {
    return this.reportIndex;
  }

  public void setReportIndex(long reportIndex) {
    this.reportIndex = reportIndex;
  }

  public int getBizId() {
    return this.bizId;
  }

  public void setBizId(int bizId) {
    this.bizId = bizId;
  }

  public String getExecType() {
    return this.execType;
  }

  public void setExecType(String execType) {
    this.execType = execType;
  }

  public String getBizPbu() {
    return this.bizPbu;
  }

  public void setBizPbu(String bizPbu) {
    this.bizPbu = bizPbu;
  }

  public String getClOrdId() {
    return this.clOrdId;
  }

  public void setClOrdId(String clOrdId) {
    this.clOrdId = clOrdId;
  }

  public String getSecurityId() {
    return this.securityId;
  }

  public void setSecurityId(String securityId) {
    this.securityId = securityId;
  }

  public String getAccount() {
    return this.account;
  }

  public void setAccount(String account) {
    this.account = account;
  }

  public byte getOwnerType() {
    return this.ownerType;
  }

  public void setOwnerType(byte ownerType) {
    this.ownerType = ownerType;
  }

  public String getSide() {
    return this.side;
  }

  public void setSide(String side) {
    this.side = side;
  }

  public long getPrice() {
    return this.price;
  }

  public void setPrice(long price) {
    this.price = price;
  }

  public long getOrderQty() {
    return this.orderQty;
  }

  public void setOrderQty(long orderQty) {
    this.orderQty = orderQty;
  }

  public long getLeavesQty() {
    return this.leavesQty;
  }

  public void setLeavesQty(long leavesQty) {
    this.leavesQty = leavesQty;
  }

  public long getCxlQty() {
    return this.cxlQty;
  }

  public void setCxlQty(long cxlQty) {
    this.cxlQty = cxlQty;
  }

  public String getOrdType() {
    return this.ordType;
  }

  public void setOrdType(String ordType) {
    this.ordType = ordType;
  }

  public String getTimeInForce() {
    return this.timeInForce;
  }

  public void setTimeInForce(String timeInForce) {
    this.timeInForce = timeInForce;
  }

  public String getOrdStatus() {
    return this.ordStatus;
  }

  public void setOrdStatus(String ordStatus) {
    this.ordStatus = ordStatus;
  }

  public String getCreditTag() {
    return this.creditTag;
  }

  public void setCreditTag(String creditTag) {
    this.creditTag = creditTag;
  }

  public String getOrigClOrdId() {
    return this.origClOrdId;
  }

  public void setOrigClOrdId(String origClOrdId) {
    this.origClOrdId = origClOrdId;
  }

  public String getClearingFirm() {
    return this.clearingFirm;
  }

  public void setClearingFirm(String clearingFirm) {
    this.clearingFirm = clearingFirm;
  }

  public String getBranchId() {
    return this.branchId;
  }

  public void setBranchId(String branchId) {
    this.branchId = branchId;
  }

  public int getOrdRejReason() {
    return this.ordRejReason;
  }

  public void setOrdRejReason(int ordRejReason) {
    this.ordRejReason = ordRejReason;
  }

  public String getOrdCnfmId() {
    return this.ordCnfmId;
  }

  public void setOrdCnfmId(String ordCnfmId) {
    this.ordCnfmId = ordCnfmId;
  }

  public String getOrigOrdCnfmId() {
    return this.origOrdCnfmId;
  }

  public void setOrigOrdCnfmId(String origOrdCnfmId) {
    this.origOrdCnfmId = origOrdCnfmId;
  }

  public int getTradeDate() {
    return this.tradeDate;
  }

  public void setTradeDate(int tradeDate) {
    this.tradeDate = tradeDate;
  }

  public long getTransactTime() {
    return this.transactTime;
  }

  public void setTransactTime(long transactTime) {
    this.transactTime = transactTime;
  }

  public String getUserInfo() {
    return this.userInfo;
  }

  public void setUserInfo(String userInfo) {
    this.userInfo = userInfo;
  }

  @Override
  public void encode(ByteBuf byteBuf) {
    writeFixedString(byteBuf, this.pbu, 8);
    byteBuf.writeInt(this.setId);
    byteBuf.writeLong(this.reportIndex);
    byteBuf.writeInt(this.bizId);
    writeFixedString(byteBuf, this.execType, 1);
    writeFixedString(byteBuf, this.bizPbu, 8);
    writeFixedString(byteBuf, this.clOrdId, 10);
    writeFixedString(byteBuf, this.securityId, 12);
    writeFixedString(byteBuf, this.account, 13);
    byteBuf.writeByte(this.ownerType);
    writeFixedString(byteBuf, this.side, 1);
    byteBuf.writeLong(this.price);
    byteBuf.writeLong(this.orderQty);
    byteBuf.writeLong(this.leavesQty);
    byteBuf.writeLong(this.cxlQty);
    writeFixedString(byteBuf, this.ordType, 1);
    writeFixedString(byteBuf, this.timeInForce, 1);
    writeFixedString(byteBuf, this.ordStatus, 1);
    writeFixedString(byteBuf, this.creditTag, 2);
    writeFixedString(byteBuf, this.origClOrdId, 10);
    writeFixedString(byteBuf, this.clearingFirm, 8);
    writeFixedString(byteBuf, this.branchId, 8);
    byteBuf.writeInt(this.ordRejReason);
    writeFixedString(byteBuf, this.ordCnfmId, 16);
    writeFixedString(byteBuf, this.origOrdCnfmId, 16);
    byteBuf.writeInt(this.tradeDate);
    byteBuf.writeLong(this.transactTime);
    writeFixedString(byteBuf, this.userInfo, 32);
  }

  @Override
  public void decode(ByteBuf byteBuf) {
    this.pbu = readFixedString(byteBuf, 8);
    this.setId = byteBuf.readInt();
    this.reportIndex = byteBuf.readLong();
    this.bizId = byteBuf.readInt();
    this.execType = readFixedString(byteBuf, 1);
    this.bizPbu = readFixedString(byteBuf, 8);
    this.clOrdId = readFixedString(byteBuf, 10);
    this.securityId = readFixedString(byteBuf, 12);
    this.account = readFixedString(byteBuf, 13);
    this.ownerType = byteBuf.readByte();
    this.side = readFixedString(byteBuf, 1);
    this.price = byteBuf.readLong();
    this.orderQty = byteBuf.readLong();
    this.leavesQty = byteBuf.readLong();
    this.cxlQty = byteBuf.readLong();
    this.ordType = readFixedString(byteBuf, 1);
    this.timeInForce = readFixedString(byteBuf, 1);
    this.ordStatus = readFixedString(byteBuf, 1);
    this.creditTag = readFixedString(byteBuf, 2);
    this.origClOrdId = readFixedString(byteBuf, 10);
    this.clearingFirm = readFixedString(byteBuf, 8);
    this.branchId = readFixedString(byteBuf, 8);
    this.ordRejReason = byteBuf.readInt();
    this.ordCnfmId = readFixedString(byteBuf, 16);
    this.origOrdCnfmId = readFixedString(byteBuf, 16);
    this.tradeDate = byteBuf.readInt();
    this.transactTime = byteBuf.readLong();
    this.userInfo = readFixedString(byteBuf, 32);
  }

  @Override
  public int hashCode() {
    return Objects.hash(
        pbu,
        setId,
        reportIndex,
        bizId,
        execType,
        bizPbu,
        clOrdId,
        securityId,
        account,
        ownerType,
        side,
        price,
        orderQty,
        leavesQty,
        cxlQty,
        ordType,
        timeInForce,
        ordStatus,
        creditTag,
        origClOrdId,
        clearingFirm,
        branchId,
        ordRejReason,
        ordCnfmId,
        origOrdCnfmId,
        tradeDate,
        transactTime,
        userInfo);
  }

  @Override
  public boolean equals(Object obj) {
    if (this == obj) {
      return true;
    }
    if (null == obj || getClass() != obj.getClass()) {
      return false;
    }
    Confirm orther_ = (Confirm) obj;
    return Objects.equals(pbu, orther_.pbu)
        && Objects.equals(setId, orther_.setId)
        && Objects.equals(reportIndex, orther_.reportIndex)
        && Objects.equals(bizId, orther_.bizId)
        && Objects.equals(execType, orther_.execType)
        && Objects.equals(bizPbu, orther_.bizPbu)
        && Objects.equals(clOrdId, orther_.clOrdId)
        && Objects.equals(securityId, orther_.securityId)
        && Objects.equals(account, orther_.account)
        && Objects.equals(ownerType, orther_.ownerType)
        && Objects.equals(side, orther_.side)
        && Objects.equals(price, orther_.price)
        && Objects.equals(orderQty, orther_.orderQty)
        && Objects.equals(leavesQty, orther_.leavesQty)
        && Objects.equals(cxlQty, orther_.cxlQty)
        && Objects.equals(ordType, orther_.ordType)
        && Objects.equals(timeInForce, orther_.timeInForce)
        && Objects.equals(ordStatus, orther_.ordStatus)
        && Objects.equals(creditTag, orther_.creditTag)
        && Objects.equals(origClOrdId, orther_.origClOrdId)
        && Objects.equals(clearingFirm, orther_.clearingFirm)
        && Objects.equals(branchId, orther_.branchId)
        && Objects.equals(ordRejReason, orther_.ordRejReason)
        && Objects.equals(ordCnfmId, orther_.ordCnfmId)
        && Objects.equals(origOrdCnfmId, orther_.origOrdCnfmId)
        && Objects.equals(tradeDate, orther_.tradeDate)
        && Objects.equals(transactTime, orther_.transactTime)
        && Objects.equals(userInfo, orther_.userInfo);
  }

  @Override
  public String toString() {
    return ""Confirm [""
        + ""pbu=""
        + this.pbu
        + "", setId=""
        + this.setId
        + "", reportIndex=""
        + this.reportIndex
        + "", bizId=""
        + this.bizId
        + "", execType=""
        + this.execType
        + "", bizPbu=""
        + this.bizPbu
        + "", clOrdId=""
        + this.clOrdId
        + "", securityId=""
        + this.securityId
        + "", account=""
        + this.account
        + "", ownerType=""
        + this.ownerType
        + "", side=""
        + this.side
        + "", price=""
        + this.price
        + "", orderQty=""
        + this.orderQty
        + "", leavesQty=""
        + this.leavesQty
        + "", cxlQty=""
        + this.cxlQty
        + "", ordType=""
        + this.ordType
        + "", timeInForce=""
        + this.timeInForce
        + "", ordStatus=""
        + this.ordStatus
        + "", creditTag=""
        + this.creditTag
        + "", origClOrdId=""
        + this.origClOrdId
        + "", clearingFirm=""
        + this.clearingFirm
        + "", branchId=""
        + this.branchId
        + "", ordRejReason=""
        + this.ordRejReason
        + "", ordCnfmId=""
        + this.ordCnfmId
        + "", origOrdCnfmId=""
        + this.origOrdCnfmId
        + "", tradeDate=""
        + this.tradeDate
        + "", transactTime=""
        + this.transactTime
        + "", userInfo=""
        + this.userInfo
        + ""]"";
  }
}
".

(* sse-bin/src/main/java/com/finproto/sse/bin/messages/ExecRptEndOfStream.java *)
Definition text_sse_ExecRptEndOfStream : text :=
"// Code generated by fin-protoc. DO NOT EDIT.
package com.finproto.sse.bin.messages;

import com.finproto.codec.BinaryCodec;
import io.netty.buffer.ByteBuf;
import java.util.Objects;

public class ExecRptEndOfStream implements BinaryCodec {
  private String pbu;
  private int setId;
  private long endReportIndex;

  public String getPbu() {
    return this.pbu;
  }

  public void setPbu(String pbu) {
    this.pbu = pbu;
  }

  public int getSetId() {
    return this.setId;
  }

  public void setSetId(int setId) {
    this.setId = setId;
  }

  public long getEndReportIndex() {
    return this.endReportIndex;
  }

  public void setEndReportIndex(long endReportIndex) {
    this.endReportIndex = endReportIndex;
  }

  @Override
  public void encode(ByteBuf byteBuf) {
    writeFixedString(byteBuf, this.pbu, 8);
    byteBuf.writeInt(this.setId);
    byteBuf.writeLong(this.endReportIndex);
  }

  @Override
  public void decode(ByteBuf byteBuf) {
    this.pbu = readFixedString(byteBuf, 8);
    this.setId = byteBuf.readInt();
    this.endReportIndex = byteBuf.readLong();
  }

  @Override
  public int hashCode() {
    return Objects.hash(pbu, setId, endReportIndex);
  }

  @Override
  public boolean equals(Object obj) {
    if (this == obj) {
      return true;
    }
    if (null == obj || getClass() != obj.getClass()) {
      return false;
    }
    ExecRptEndOfStream orther_ = (ExecRptEndOfStream) obj;
    return Objects.equals(pbu, orther_.pbu)
        && Objects.equals(setId, orther_.setId)
        && Objects.equals(endReportIndex, orther_.endReportIndex);
  }

  @Override
  public String toString() {
    return ""ExecRptEndOfStream [""
        + ""pbu=""
        + this.pbu
        + "", setId=""
        + this.setId
        + "", endReportIndex=""
        + this.endReportIndex
        + ""]"";
  }
}
".

(* sse-bin/src/main/java/com/finproto/sse/bin/messages/ExecRptInfo.java *)
Definition text_sse_ExecRptInfo : text :=
"// Code generated by fin-protoc. DO NOT EDIT.
package com.finproto.sse.bin.messages;

import com.finproto.codec.BinaryCodec;
import io.netty.buffer.ByteBuf;
import java.util.ArrayList;
import java.util.List;
import java.util.Objects;

public class ExecRptInfo implements BinaryCodec {
  private short platformId;
  private List<String> pbu;
  private List<Integer> setId;

  public short getPlatformId() {
    return this.platformId;
  }

  public void setPlatformId(short platformId) {
    this.platformId = platformId;
  }

  public List<String> getPbu() {
    return this.pbu;
  }

  public void setPbu(List<String> pbu) {
    this.pbu = pbu;
  }

  public List<Integer> getSetId() {
    return this.setId;
  }

  public void setSetId(List<Integer> setId) {
    this.setId = setId;
  }

  @Override
  public void encode(ByteBuf byteBuf) {
    byteBuf.writeShort(this.platformId);
    if (null == this.pbu || this.pbu.size() == 0) {
      byteBuf.writeShort(0);
    } else {
      byteBuf.writeShort((short) this.pbu.size());
      for (int i = 0; i < this.pbu.size(); i++) {
        writeFixedString(byteBuf, this.pbu.get(i), 8);
      }
    }
    if (null == this.setId || this.setId.size() == 0) {
      byteBuf.writeShort(0);
    } else {
      byteBuf.writeShort((short) this.setId.size());
      for (int i = 0; i < this.setId.size(); i++) {
        byteBuf.writeInt(this.setId.get(i));
      }
    }
  }

  @Override
  public void decode(ByteBuf byteBuf) {
    this.platformId = byteBuf.readShort();
    short pbuSize = byteBuf.readShort();
    if (pbuSize > 0) {
      this.pbu = new ArrayList<>();
      for (int i = 0; i < pbuSize; i++) {
        this.pbu.add(readFixedString(byteBuf, 8));
      }
    }
    short setIdSize = byteBuf.readShort();
    if (setIdSize > 0) {
      this.setId = new ArrayList<>();
      for (int i = 0; i < setIdSize; i++) {
        this.setId.add(byteBuf.readInt());
      }
    }
  }

  @Override
  public int hashCode() {
    return Objects.hash(platformId, pbu, setId);
  }

  @Override
  public boolean equals(Object obj) {
    if (this == obj) {
      return true;
    }
    if (null == obj || getClass() != obj.getClass()) {
      return false;
    }
    ExecRptInfo orther_ = (ExecRptInfo) obj;
    return Objects.equals(platformId, orther_.platformId)
        && Objects.equals(pbu, orther_.pbu)
        && Objects.equals(setId, orther_.setId);
  }

  @Override
  public String toString() {
    return ""ExecRptInfo [""
        + ""platformId=""
        + this.platformId
        + "", pbu=""
        + this.pbu
        + "", setId=""
        + this.setId
        + ""]"";
  }
}
".

(* sse-bin/src/main/java/com/finproto/sse/bin/messages/ExecRptSync.java *)
Definition text_sse_ExecRptSync : text :=
"// Code generated by fin-protoc. DO NOT EDIT.
package com.finproto.sse.bin.messages;

import com.finproto.codec.BinaryCodec;
import io.netty.buffer.ByteBuf;
import java.util.ArrayList;
import java.util.List;
import java.util.Objects;

public class ExecRptSync implements BinaryCodec {
  private List<SubExecRptSync> subExecRptSync;

  public List<SubExecRptSync> getSubExecRptSync() {
    return this.subExecRptSync;
  }

  public void setSubExecRptSync(List<SubExecRptSync> subExecRptSync) {
    this.subExecRptSync = subExecRptSync;
  }

  @Override
  public void encode(ByteBuf byteBuf) {
    if (null == this.subExecRptSync || this.subExecRptSync.size() == 0) {
      byteBuf.writeShort(0);
    } else {
      byteBuf.writeShort((short) this.subExecRptSync.size());
      for (int i = 0; i < this.subExecRptSync.size(); i++) {
        this.subExecRptSync.get(i).encode(byteBuf);
      }
    }
  }

  @Override
  public void decode(ByteBuf byteBuf) {
    short subExecRptSyncSize = byteBuf.readShort();
    if (subExecRptSyncSize > 0) {
      this.subExecRptSync = new ArrayList<>();
      for (int i = 0; i < subExecRptSyncSize; i++) {
        SubExecRptSync subExecRptSync_ = new SubExecRptSync();
        subExecRptSync_.decode(byteBuf);
        this.subExecRptSync.add(subExecRptSync_);
      }
    }
  }

  @Override
  public int hashCode() {
    return Objects.hash(subExecRptSync);
  }

  @Override
  public boolean equals(Object obj) {
    if (this == obj) {
      return true;
    }
    if (null == obj || getClass() != obj.getClass()) {
      return false;
    }
    ExecRptSync orther_ = (ExecRptSync) obj;
    return Objects.equals(subExecRptSync, orther_.subExecRptSync);
  }

  @Override
  public String toString() {
    return ""ExecRptSync ["" + ""subExecRptSync="" + this.subExecRptSync + ""]"";
  }

  // Code generated by fin-protoc. DO NOT EDIT.
  public static class SubExecRptSync implements BinaryCodec {
    private String pbu;
    private int setId;
    private long beginReportIndex;

    public String getPbu() {
      return this.pbu;
    }

    public void setPbu(String pbu) {
      this.pbu = pbu;
    }

    public int getSetId() {
      return this.setId;
    }

    public void setSetId(int setId) {
      this.setId = setId;
    }

    public long getBeginReportIndex() {
      return this.beginReportIndex;
    }

    public void setBeginReportIndex(long beginReportIndex) {
      this.beginReportIndex = beginReportIndex;
    }

    @Override
    public void encode(ByteBuf byteBuf) {
      writeFixedString(byteBuf, this.pbu, 8);
      byteBuf.writeInt(this.setId);
      byteBuf.writeLong(this.beginReportIndex);
    }

    @Override
    public void decode(ByteBuf byteBuf) {
      this.pbu = readFixedString(byteBuf, 8);
      this.setId = byteBuf.readInt();
      this.beginReportIndex = byteBuf.readLong();
    }

    @Override
    public int hashCode() {
      return Objects.hash(pbu, setId, beginReportIndex);
    }

    @Override
    public boolean equals(Object obj) {
      if (this == obj) {
        return true;
      }
      if (null == obj || getClass() != obj.getClass()) {
        return false;
      }
      SubExecRptSync orther_ = (SubExecRptSync) obj;
      return Objects.equals(pbu, orther_.pbu)
          && Objects.equals(setId, orther_.setId)
          && Objects.equals(beginReportIndex, orther_.beginReportIndex);
    }

    @Override
    public String toString() {
      return ""SubExecRptSync [""
          + ""pbu=""
          + this.pbu
          + "", setId=""
          + this.setId
          + "", beginReportIndex=""
          + this.beginReportIndex
          + ""]"";
    }
  }
}
".

(* sse-bin/src/main/java/com/finproto/sse/bin/messages/ExecRptSyncRsp.java *)
Definition text_sse_ExecRptSyncRsp : text :=
"// Code generated by fin-protoc. DO NOT EDIT.
package com.finproto.sse.bin.messages;

import com.finproto.codec.BinaryCodec;
import io.netty.buffer.ByteBuf;
import java.util.ArrayList;
import java.util.List;
import java.util.Objects;

public class ExecRptSyncRsp implements BinaryCodec {
  private List<SubExecRptSyncRsp> subExecRptSyncRsp;

  public List<SubExecRptSyncRsp> getSubExecRptSyncRsp() {
    return this.subExecRptSyncRsp;
  }

  public void setSubExecRptSyncRsp(List<SubExecRptSyncRsp> subExecRptSyncRsp) {
    this.subExecRptSyncRsp = subExecRptSyncRsp;
  }

  @Override
  public void encode(ByteBuf byteBuf) {
    if (null == this.subExecRptSyncRsp || this.subExecRptSyncRsp.size() == 0) {
      byteBuf.writeShort(0);
    } else {
      byteBuf.writeShort((short) this.subExecRptSyncRsp.size());
      for (int i = 0; i < this.subExecRptSyncRsp.size(); i++) {
        this.subExecRptSyncRsp.get(i).encode(byteBuf);
      }
    }
  }

  @Override
  public void decode(ByteBuf byteBuf) {
    short subExecRptSyncRspSize = byteBuf.readShort();
    if (subExecRptSyncRspSize > 0) {
      this.subExecRptSyncRsp = new ArrayList<>();
      for (int i = 0; i < subExecRptSyncRspSize; i++) {
        SubExecRptSyncRsp subExecRptSyncRsp_ = new SubExecRptSyncRsp();
        subExecRptSyncRsp_.decode(byteBuf);
        this.subExecRptSyncRsp.add(subExecRptSyncRsp_);
      }
    }
  }

  @Override
  public int hashCode() {
    return Objects.hash(subExecRptSyncRsp);
  }

  @Override
  public boolean equals(Object obj) {
    if (this == obj) {
      return true;
    }
    if (null == obj || getClass() != obj.getClass()) {
      return false;
    }
    ExecRptSyncRsp orther_ = (ExecRptSyncRsp) obj;
    return Objects.equals(subExecRptSyncRsp, orther_.subExecRptSyncRsp);
  }

  @Override
  public String toString() {
    return ""ExecRptSyncRsp ["" + ""subExecRptSyncRsp="" + this.subExecRptSyncRsp + ""]"";
  }

  // Code generated by fin-protoc. DO NOT EDIT.
  public static class SubExecRptSyncRsp implements BinaryCodec {
    private String pbu;
    private int setId;
    private long beginReportIndex;
    private long endReportIndex;
    private int rejReason;
    private String text;

    public String getPbu() {
      return this.pbu;
    }

    public void setPbu(String pbu) {
      this.pbu = pbu;
    }

    public int getSetId() {
      return this.setId;
    }

    public void setSetId(int setId) {
      this.setId = setId;
    }

    public long getBeginReportIndex() {
      return this.beginReportIndex;
    }

    public void setBeginReportIndex(long beginReportIndex) {
      this.beginReportIndex = beginReportIndex;
    }

    public long getEndReportIndex() {
      return this.endReportIndex;
    }

    public void setEndReportIndex(long endReportIndex) {
      this.endReportIndex = endReportIndex;
    }

    public int getRejReason() {
      return this.rejReason;
    }

    public void setRejReason(int rejReason) {
      this.rejReason = rejReason;
    }

    public String getText() {
      return this.text;
    }

    public void setText(String text) {
      this.text = text;
    }

    @Override
    public void encode(ByteBuf byteBuf) {
      writeFixedString(byteBuf, this.pbu, 8);
      byteBuf.writeInt(this.setId);
      byteBuf.writeLong(this.beginReportIndex);
      byteBuf.writeLong(this.endReportIndex);
      byteBuf.writeInt(this.rejReason);
      writeFixedString(byteBuf, this.text, 64);
    }

    @Override
    public void decode(ByteBuf byteBuf) {
      this.pbu = readFixedString(byteBuf, 8);
      this.setId = byteBuf.readInt();
      this.beginReportIndex = byteBuf.readLong();
      this.endReportIndex = byteBuf.readLong();
      this.rejReason = byteBuf.readInt();
      this.text = readFixedString(byteBuf, 64);
    }

    @Override
    public int hashCode() {
      return Objects.hash(pbu, setId, beginReportIndex, endReportIndex, rejReason, text);
    }

    @Override
    public boolean equals(Object obj) {
      if (this == obj) {
        return true;
      }
      if (null == obj || getClass() != obj.getClass()) {
        return false;
      }
      SubExecRptSyncRsp orther_ = (SubExecRptSyncRsp) obj;
      return Objects.equals(pbu, orther_.pbu)
          && Objects.equals(setId, orther_.setId)
          && Objects.equals(beginReportIndex, orther_.beginReportIndex)
          && Objects.equals(endReportIndex, orther_.endReportIndex)
          && Objects.equals(rejReason, orther_.rejReason)
          && Objects.equals(text, orther_.text);
    }

    @Override
    public String toString() {
      return ""SubExecRptSyncRsp [""
          + ""pbu=""
          + this.pbu
          + "", setId=""
          + this.setId
          + "", beginReportIndex=""
          + this.beginReportIndex
          + "", endReportIndex=""
          + this.endReportIndex
          + "", rejReason=""
          + this.rejReason
          + "", text=""
          + this.text
          + ""]"";
    }
  }
}
".

(* sse-bin/src/main/java/com/finproto/sse/bin/messages/Heartbeat.java *)
Definition text_sse_Heartbeat : text :=
"// Code generated by fin-protoc. DO NOT EDIT.
package com.finproto.sse.bin.messages;

import com.finproto.codec.BinaryCodec;
import io.netty.buffer.ByteBuf;

public class Heartbeat implements BinaryCodec {

  @Override
  public void encode(ByteBuf byteBuf) {}

  @Override
  public void decode(ByteBuf byteBuf) {}

  @Override
  public int hashCode() {
    return this.hashCode();
  }

  @Override
  public boolean equals(Object obj) {
    if (this == obj) {
      return true;
    }
    if (null == obj || getClass() != obj.getClass()) {
      return false;
    }
    return true;
  }

  @Override
  public String toString() {
    return ""Heartbeat []"";
  }
}
".

(* sse-bin/src/main/java/com/finproto/sse/bin/messages/Logon.java *)
Definition text_sse_Logon : text :=
"// Code generated by fin-protoc. DO NOT EDIT.
package com.finproto.sse.bin.messages;

import com.finproto.codec.BinaryCodec;
import io.netty.buffer.ByteBuf;
import java.util.Objects;

public class Logon implements BinaryCodec {
  private String senderCompId;
  private String targetCompId;
  private short heartBtInt;
  private String prtclVersion;
  private int tradeDate;
  private int qsize;

  public String getSenderCompId() {
    return this.senderCompId;
  }

  public void setSenderCompId(String senderCompId) {
    this.senderCompId = senderCompId;
  }

  public String getTargetCompId() {
    return this.targetCompId;
  }

  public void setTargetCompId(String targetCompId) {
    this.targetCompId = targetCompId;
  }

  public short getHeartBtInt() {
    return this.heartBtInt;
  }

  public void setHeartBtInt(short heartBtInt) {
    this.heartBtInt = heartBtInt;
  }

  public String getPrtclVersion() {
    return this.prtclVersion;
  }

  public void setPrtclVersion(String prtclVersion) {
    this.prtclVersion = prtclVersion;
  }

  public int getTradeDate() {
    return this.tradeDate;
  }

  public void setTradeDate(int tradeDate) {
    this.tradeDate = tradeDate;
  }

  public int getQsize() {
    return this.qsize;
  }

  public void setQsize(int qsize) {
    this.qsize = qsize;
  }

  @Override
  public void encode(ByteBuf byteBuf) {
    writeFixedString(byteBuf, this.senderCompId, 32);
    writeFixedString(byteBuf, this.targetCompId, 32);
    byteBuf.writeShort(this.heartBtInt);
    writeFixedString(byteBuf, this.prtclVersion, 8);
    byteBuf.writeInt(this.tradeDate);
    byteBuf.writeInt(this.qsize);
  }

  @Override
  public void decode(ByteBuf byteBuf) {
    this.senderCompId = readFixedString(byteBuf, 32);
    this.targetCompId = readFixedString(byteBuf, 32);
    this.heartBtInt = byteBuf.readShort();
    this.prtclVersion = readFixedString(byteBuf, 8);
    this.tradeDate = byteBuf.readInt();
    this.qsize = byteBuf.readInt();
  }

  @Override
  public int hashCode() {
    return Objects.hash(senderCompId, targetCompId, heartBtInt, prtclVersion, tradeDate, qsize);
  }

  @Override
  public boolean equals(Object obj) {
    if (this == obj) {
      return true;
    }
    if (null == obj || getClass() != obj.getClass()) {
      return false;
    }
    Logon orther_ = (Logon) obj;
    return Objects.equals(senderCompId, orther_.senderCompId)
        && Objects.equals(targetCompId, orther_.targetCompId)
        && Objects.equals(heartBtInt, orther_.heartBtInt)
        && Objects.equals(prtclVersion, orther_.prtclVersion)
        && Objects.equals(tradeDate, orther_.tradeDate)
        && Objects.equals(qsize, orther_.qsize);
  }

  @Override
  public String toString() {
    return ""Logon [""
        + ""senderCompId=""
        + this.senderCompId
        + "", targetCompId=""
        + this.targetCompId
        + "", heartBtInt=""
        + this.heartBtInt
        + "", prtclVersion=""
        + this.prtclVersion
        + "", tradeDate=""
        + this.tradeDate
        + "", qsize=""
        + this.qsize
        + ""]"";
  }
}
".

(* sse-bin/src/main/java/com/finproto/sse/bin/messages/Logout.java *)
Definition text_sse_Logout : text :=
"// Code generated by fin-protoc. DO NOT EDIT.
package com.finproto.sse.bin.messages;

import com.finproto.codec.BinaryCodec;
import io.netty.buffer.ByteBuf;
import java.util.Objects;

public class Logout implements BinaryCodec {
  private int sessionStatus;
  private String text;

  public int getSessionStatus() {
    return this.sessionStatus;
  }

  public void setSessionStatus(int sessionStatus) {
    this.sessionStatus = sessionStatus;
  }

  public String getText() {
    return this.text;
  }

  public void setText(String text) {
    this.text = text;
  }

  @Override
  public void encode(ByteBuf byteBuf) {
    byteBuf.writeInt(this.sessionStatus);
    writeFixedString(byteBuf, this.text, 64);
  }

  @Override
  public void decode(ByteBuf byteBuf) {
    this.sessionStatus = byteBuf.readInt();
    this.text = readFixedString(byteBuf, 64);
  }

  @Override
  public int hashCode() {
    return Objects.hash(sessionStatus, text);
  }

  @Override
  public boolean equals(Object obj) {
    if (this == obj) {
      return true;
    }
    if (null == obj || getClass() != obj.getClass()) {
      return false;
    }
    Logout orther_ = (Logout) obj;
    return Objects.equals(sessionStatus, orther_.sessionStatus)
        && Objects.equals(text, orther_.text);
  }

  @Override
  public String toString() {
    return ""Logout ["" + ""sessionStatus="" + this.sessionStatus + "", text="" + this.text + ""]"";
  }
}
".

(* sse-bin/src/main/java/com/finproto/sse/bin/messages/NewOrderSingle.java *)
Definition text_sse_NewOrderSingle : text :=
"// Code generated by fin-protoc. DO NOT EDIT.
package com.finproto.sse.bin.messages;

import com.finproto.codec.BinaryCodec;
import io.netty.buffer.ByteBuf;
import java.util.Objects;

public class NewOrderSingle implements BinaryCodec {
  private int bizId;
  private String bizPbu;
  private String clOrdId;
  private String securityId;
  private String account;
  private byte ownerType;
  private String side;
  private long price;
  private long orderQty;
  private String ordType;
  private String timeInForce;
  private long transactTime;
  private String creditTag;
  private String clearingFirm;
  private String branchId;
  private String userInfo;

  public int getBizId() {
    return this.bizId;
  }

  public void setBizId(int bizId) {
    this.bizId = bizId;
  }

  public String getBizPbu() {
    return this.bizPbu;
  }

  public void setBizPbu(String bizPbu) {
    this.bizPbu = bizPbu;
  }

  public String getClOrdId() {
    return this.clOrdId;
  }

  public void setClOrdId(String clOrdId) {
    this.clOrdId = clOrdId;
  }

  public String getSecurityId() {
    return this.securityId;
  }

  public void setSecurityId(String securityId) {
    this.securityId = securityId;
  }

  public String getAccount() {
    return this.account;
  }

  public void setAccount(String account) {
    this.account = account;
  }

  public byte getOwnerType() {
    return this.ownerType;
  }

  public void setOwnerType(byte ownerType) {
    this.ownerType = ownerType;
  }

  public String getSide() {
    return this.side;
  }

  public void setSide(String side) {
    this.side = side;
  }

  public long getPrice() {
    return this.price;
  }

  public void setPrice(long price) {
    this.price = price;
  }

  public long getOrderQty() {
    return this.orderQty;
  }

  public void setOrderQty(long orderQty) {
    this.orderQty = orderQty;
  }

  public String getOrdType() {
    return this.ordType;
  }

  public void setOrdType(String ordType) {
    this.ordType = ordType;
  }

  public String getTimeInForce() {
    return this.timeInForce;
  }

  public void setTimeInForce(String timeInForce) {
    this.timeInForce = timeInForce;
  }

  public long getTransactTime() {
    return this.transactTime;
  }

  public void setTransactTime(long transactTime) {
    this.transactTime = transactTime;
  }

  public String getCreditTag() {
    return this.creditTag;
  }

  public void setCreditTag(String creditTag) {
    this.creditTag = creditTag;
  }

  public String getClearingFirm() {
    return this.clearingFirm;
  }

  public void setClearingFirm(String clearingFirm) {
    this.clearingFirm = clearingFirm;
  }

  public String getBranchId() {
    return this.branchId;
  }

  public void setBranchId(String branchId) {
    this.branchId = branchId;
  }

  public String getUserInfo() {
    return this.userInfo;
  }

  public void setUserInfo(String userInfo) {
    this.userInfo = userInfo;
  }

  @Override
  public void encode(ByteBuf byteBuf) {
    byteBuf.writeInt(this.bizId);
    writeFixedString(byteBuf, this.bizPbu, 8);
    writeFixedString(byteBuf, this.clOrdId, 10);
    writeFixedString(byteBuf, this.securityId, 12);
    writeFixedString(byteBuf, this.account, 13);
    byteBuf.writeByte(this.ownerType);
    writeFixedString(byteBuf, this.side, 1);
    byteBuf.writeLong(this.price);
    byteBuf.writeLong(this.orderQty);
    writeFixedString(byteBuf, this.ordType, 1);
    writeFixedString(byteBuf, this.timeInForce, 1);
    byteBuf.writeLong(this.transactTime);
    writeFixedString(byteBuf, this.creditTag, 2);
    writeFixedString(byteBuf, this.clearingFirm, 8);
    writeFixedString(byteBuf, this.branchId, 8);
    writeFixedString(byteBuf, this.userInfo, 32);
  }

  @Override
  public void decode(ByteBuf byteBuf) {
    this.bizId = byteBuf.readInt();
    this.bizPbu = readFixedString(byteBuf, 8);
    this.clOrdId = readFixedString(byteBuf, 10);
    this.securityId = readFixedString(byteBuf, 12);
    this.account = readFixedString(byteBuf, 13);
    this.ownerType = byteBuf.readByte();
    this.side = readFixedString(byteBuf, 1);
    this.price = byteBuf.readLong();
    this.orderQty = byteBuf.readLong();
    this.ordType = readFixedString(byteBuf, 1);
    this.timeInForce = readFixedString(byteBuf, 1);
    this.transactTime = byteBuf.readLong();
    this.creditTag = readFixedString(byteBuf, 2);
    this.clearingFirm = readFixedString(byteBuf, 8);
    this.branchId = readFixedString(byteBuf, 8);
    this.userInfo = readFixedString(byteBuf, 32);
  }

  @Override
  public int hashCode() {
    return Objects.hash(
        bizId,
        bizPbu,
        clOrdId,
        securityId,
        account,
        ownerType,
        side,
        price,
        orderQty,
        ordType,
        timeInForce,
        transactTime,
        creditTag,
        clearingFirm,
        branchId,
        userInfo);
  }

  @Override
  public boolean equals(Object obj) {
    if (this == obj) {
      return true;
    }
    if (null == obj || getClass() != obj.getClass()) {
      return false;
    }
    NewOrderSingle orther_ = (NewOrderSingle) obj;
    return Objects.equals(bizId, orther_.bizId)
        && Objects.equals(bizPbu, orther_.bizPbu)
        && Objects.equals(clOrdId, orther_.clOrdId)
        && Objects.equals(securityId, orther_.securityId)
        && Objects.equals(account, orther_.account)
        && Objects.equals(ownerType, orther_.ownerType)
        && Objects.equals(side, orther_.side)
        && Objects.equals(price, orther_.price)
        && Objects.equals(orderQty, orther_.orderQty)
        && Objects.equals(ordType, orther_.ordType)
        && Objects.equals(timeInForce, orther_.timeInForce)
        && Objects.equals(transactTime, orther_.transactTime)
        && Objects.equals(creditTag, orther_.creditTag)
        && Objects.equals(clearingFirm, orther_.clearingFirm)
        && Objects.equals(branchId, orther_.branchId)
        && Objects.equals(userInfo, orther_.userInfo);
  }

  @Override
  public String toString() {
    return ""NewOrderSingle [""
        + ""bizId=""
        + this.bizId
        + "", bizPbu=""
        + this.bizPbu
        + "", clOrdId=""
        + this.clOrdId
        + "", securityId=""
        + this.securityId
        + "", account=""
        + this.account
        + "", ownerType=""
        + this.ownerType
        + "", side=""
        + this.side
        + "", price=""
        + this.price
        + "", orderQty=""
        + this.orderQty
        + "", ordType=""
        + this.ordType
        + "", timeInForce=""
        + this.timeInForce
        + "", transactTime=""
        + this.transactTime
        + "", creditTag=""
        + this.creditTag
        + "", clearingFirm=""
        + this.clearingFirm
        + "", branchId=""
        + this.branchId
        + "", userInfo=""
        + this.userInfo
        + ""]"";
  }
}
".

(* sse-bin/src/main/java/com/finproto/sse/bin/messages/OrderCancel.java *)
Definition text_sse_OrderCancel : text :=
"// Code generated by fin-protoc. DO NOT EDIT.
package com.finproto.sse.bin.messages;

import com.finproto.codec.BinaryCodec;
import io.netty.buffer.ByteBuf;
import java.util.Objects;

public class OrderCancel implements BinaryCodec {
  private int bizId;
  private String bizPbu;
  private String clOrdId;
  private String securityId;
  private String account;
  private byte ownerType;
  private String side;
  private String origClOrdId;
  private long transactTime;
  private String branchId;
  private String userInfo;

  public int getBizId() {
    return this.bizId;
  }

  public void setBizId(int bizId) {
    this.bizId = bizId;
  }

  public String getBizPbu() {
    return this.bizPbu;
  }

  public void setBizPbu(String bizPbu) {
    this.bizPbu = bizPbu;
  }

  public String getClOrdId() {
    return this.clOrdId;
  }

  public void setClOrdId(String clOrdId) {
    this.clOrdId = clOrdId;
  }

  public String getSecurityId() {
    return this.securityId;
  }

  public void setSecurityId(String securityId) {
    this.securityId = securityId;
  }

  public String getAccount() {
    return this.account;
  }

  public void setAccount(String account) {
    this.account = account;
  }

  public byte getOwnerType() {
    return this.ownerType;
  }

  public void setOwnerType(byte ownerType) {
    this.ownerType = ownerType;
  }

  public String getSide() {
    return this.side;
  }

  public void setSide(String side) {
    this.side = side;
  }

  public String getOrigClOrdId() {
    return this.origClOrdId;
  }

  public void setOrigClOrdId(String origClOrdId) {
    this.origClOrdId = origClOrdId;
  }

  public long getTransactTime() {
    return this.transactTime;
  }

  public void setTransactTime(long transactTime) {
    this.transactTime = transactTime;
  }

  public String getBranchId() {
    return this.branchId;
  }

  public void setBranchId(String branchId) {
    this.branchId = branchId;
  }

  public String getUserInfo() {
    return this.userInfo;
  }

  public void setUserInfo(String userInfo) {
    this.userInfo = userInfo;
  }

  @Override
  public void encode(ByteBuf byteBuf) {
    byteBuf.writeInt(this.bizId);
    writeFixedString(byteBuf, this.bizPbu, 8);
    writeFixedString(byteBuf, this.clOrdId, 10);
    writeFixedString(byteBuf, this.securityId, 12);
    writeFixedString(byteBuf, this.account, 13);
    byteBuf.writeByte(this.ownerType);
    writeFixedString(byteBuf, this.side, 1);
    writeFixedString(byteBuf, this.origClOrdId, 10);
    byteBuf.writeLong(this.transactTime);
    writeFixedString(byteBuf, this.branchId, 8);
    writeFixedString(byteBuf, this.userInfo, 32);
  }

  @Override
  public void decode(ByteBuf byteBuf) {
    this.bizId = byteBuf.readInt();
    this.bizPbu = readFixedString(byteBuf, 8);
    this.clOrdId = readFixedString(byteBuf, 10);
    this.securityId = readFixedString(byteBuf, 12);
    this.account = readFixedString(byteBuf, 13);
    this.ownerType = byteBuf.readByte();
    this.side = readFixedString(byteBuf, 1);
    this.origClOrdId = readFixedString(byteBuf, 10);
    this.transactTime = byteBuf.readLong();
    this.branchId = readFixedString(byteBuf, 8);
    this.userInfo = readFixedString(byteBuf, 32);
  }

  @Override
  public int hashCode() {
    return Objects.hash(
        bizId,
        bizPbu,
        clOrdId,
        securityId,
        account,
        ownerType,
        side,
        origClOrdId,
        transactTime,
        branchId,
        userInfo);
  }

  @Override
  public boolean equals(Object obj) {
    if (this == obj) {
      return true;
    }
    if (null == obj || getClass() != obj.getClass()) {
      return false;
    }
    OrderCancel orther_ = (OrderCancel) obj;
    return Objects.equals(bizId, orther_.bizId)
        && Objects.equals(bizPbu, orther_.bizPbu)
        && Objects.equals(clOrdId, orther_.clOrdId)
        && Objects.equals(securityId, orther_.securityId)
        && Objects.equals(account, orther_.account)
        && Objects.equals(ownerType, orther_.ownerType)
        && Objects.equals(side, orther_.side)
        && Objects.equals(origClOrdId, orther_.origClOrdId)
        && Objects.equals(transactTime, orther_.transactTime)
        && Objects.equals(branchId, orther_.branchId)
        && Objects.equals(userInfo, orther_.userInfo);
  }

  @Override
  public String toString() {
    return ""OrderCancel [""
        + ""bizId=""
        + this.bizId
        + "", bizPbu=""
        + this.bizPbu
        + "", clOrdId=""
        + this.clOrdId
        + "", securityId=""
        + this.securityId
        + "", account=""
        + this.account
        + "", ownerType=""
        + this.ownerType
        + "", side=""
        + this.side
        + "", origClOrdId=""
        + this.origClOrdId
        + "", transactTime=""
        + this.transactTime
        + "", branchId=""
        + this.branchId
        + "", userInfo=""
        + this.userInfo
        + ""]"";
  }
}
".

(* sse-bin/src/main/java/com/finproto/sse/bin/messages/OrderReject.java *)
Definition text_sse_OrderReject : text :=
"// Code generated by fin-protoc. DO NOT EDIT.
package com.finproto.sse.bin.messages;

import com.finproto.codec.BinaryCodec;
import io.netty.buffer.ByteBuf;
import java.util.Objects;

public class OrderReject implements BinaryCodec {
  private int bizId;
  private String bizPbu;
  private String clOrdId;
  private String securityId;
  private int ordRejReason;
  private int tradeDate;
  private long transactTime;
  private String userInfo;

  public int getBizId() {
    return this.bizId;
  }

  public void setBizId(int bizId) {
    this.bizId = bizId;
  }

  public String getBizPbu() {
    return this.bizPbu;
  }

  public void setBizPbu(String bizPbu) {
    this.bizPbu = bizPbu;
  }

  public String getClOrdId() {
    return this.clOrdId;
  }

  public void setClOrdId(String clOrdId) {
    this.clOrdId = clOrdId;
  }

  public String getSecurityId() {
    return this.securityId;
  }

  public void setSecurityId(String securityId) {
    this.securityId = securityId;
  }

  public int getOrdRejReason() {
    return this.ordRejReason;
  }

  public void setOrdRejReason(int ordRejReason) {
    this.ordRejReason = ordRejReason;
  }

  public int getTradeDate() {
    return this.tradeDate;
  }

  public void setTradeDate(int tradeDate) {
    this.tradeDate = tradeDate;
  }

  public long getTransactTime() {
    return this.transactTime;
  }

  public void setTransactTime(long transactTime) {
    this.transactTime = transactTime;
  }

  public String getUserInfo() {
    return this.userInfo;
  }

  public void setUserInfo(String userInfo) {
    this.userInfo = userInfo;
  }

  @Override
  public void encode(ByteBuf byteBuf) {
    byteBuf.writeInt(this.bizId);
    writeFixedString(byteBuf, this.bizPbu, 8);
    writeFixedString(byteBuf, this.clOrdId, 10);
    writeFixedString(byteBuf, this.securityId, 12);
    byteBuf.writeInt(this.ordRejReason);
    byteBuf.writeInt(this.tradeDate);
    byteBuf.writeLong(this.transactTime);
    writeFixedString(byteBuf, this.userInfo, 32);
  }

  @Override
  public void decode(ByteBuf byteBuf) {
    this.bizId = byteBuf.readInt();
    this.bizPbu = readFixedString(byteBuf, 8);
    this.clOrdId = readFixedString(byteBuf, 10);
    this.securityId = readFixedString(byteBuf, 12);
    this.ordRejReason = byteBuf.readInt();
    this.tradeDate = byteBuf.readInt();
    this.transactTime = byteBuf.readLong();
    this.userInfo = readFixedString(byteBuf, 32);
  }

  @Override
  public int hashCode() {
    return Objects.hash(
        bizId, bizPbu, clOrdId, securityId, ordRejReason, tradeDate, transactTime, userInfo);
  }

  @Override
  public boolean equals(Object obj) {
    if (this == obj) {
      return true;
    }
    if (null == obj || getClass() != obj.getClass()) {
      return false;
    }
    OrderReject orther_ = (OrderReject) obj;
    return Objects.equals(bizId, orther_.bizId)
        && Objects.equals(bizPbu, orther_.bizPbu)
        && Objects.equals(clOrdId, orther_.clOrdId)
        && Objects.equals(securityId, orther_.securityId)
        && Objects.equals(ordRejReason, orther_.ordRejReason)
        && Objects.equals(tradeDate, orther_.tradeDate)
        && Objects.equals(transactTime, orther_.transactTime)
        && Objects.equals(userInfo, orther_.userInfo);
  }

  @Override
  public String toString() {
    return ""OrderReject [""
        + ""bizId=""
        + this.bizId
        + "", bizPbu=""
        + this.bizPbu
        + "", clOrdId=""
        + this.clOrdId
        + "", securityId=""
        + this.securityId
        + "", ordRejReason=""
        + this.ordRejReason
        + "", tradeDate=""
        + this.tradeDate
        + "", transactTime=""
        + this.transactTime
        + "", userInfo=""
        + this.userInfo
        + ""]"";
  }
}
".

(* sse-bin/src/main/java/com/finproto/sse/bin/messages/PlatformState.java *)
Definition text_sse_PlatformState : text :=
"// Code generated by fin-protoc. DO NOT EDIT.
package com.finproto.sse.bin.messages;

import com.finproto.codec.BinaryCodec;
import io.netty.buffer.ByteBuf;
import java.util.Objects;

public class PlatformState implements BinaryCodec {
  private short platformId;
  private short platformState;

  public short getPlatformId() {
    return this.platformId;
  }

  public void setPlatformId(short platformId) {
    this.platformId = platformId;
  }

  public short getPlatformState() {
    return this.platformState;
  }

  public void setPlatformState(short platformState) {
    this.platformState = platformState;
  }

  @Override
  public void encode(ByteBuf byteBuf) {
    byteBuf.writeShort(this.platformId);
    byteBuf.writeShort(this.platformState);
  }

  @Override
  public void decode(ByteBuf byteBuf) {
    this.platformId = byteBuf.readShort();
    this.platformState = byteBuf.readShort();
  }

  @Override
  public int hashCode() {
    return Objects.hash(platformId, platformState);
  }

  @Override
  public boolean equals(Object obj) {
    if (this == obj) {
      return true;
    }
    if (null == obj || getClass() != obj.getClass()) {
      return false;
    }
    PlatformState orther_ = (PlatformState) obj;
    return Objects.equals(platformId, orther_.platformId)
        && Objects.equals(platformState, orther_.platformState);
  }

  @Override
  public String toString() {
    return ""PlatformState [""
        + ""platformId=""
        + this.platformId
        + "", platformState=""
        + this.platformState
        + ""]"";
  }
}
".

(* sse-bin/src/main/java/com/finproto/sse/bin/messages/Report.java *)
Definition text_sse_Report : text :=
"// Code generated by fin-protoc. DO NOT EDIT.
package com.finproto.sse.bin.messages;

import com.finproto.codec.BinaryCodec;
import io.netty.buffer.ByteBuf;
import java.util.Objects;

public class Report implements BinaryCodec {
  private String pbu;
  private int setId;
  private long reportIndex;
  private int bizId;
  private String execType;
  private String bizPbu;
  private String clOrdId;
  private String securityId;
  private String account;
  private byte ownerType;
  private long orderEntryTime;
  private long lastPx;
  private long lastQty;
  private long grossTradeAmt;
  private String side;
  private long orderQty;
  private long leavesQty;
  private String ordStatus;
  private String creditTag;
  private String clearingFirm;
  private String branchId;
  private String trdCnfmId;
  private String ordCnfmId;
  private int tradeDate;
  private long transactTime;
  private String userInfo;

  public String getPbu() {
    return this.pbu;
  }

  public void setPbu(String pbu) {
    this.pbu = pbu;
  }

  public int getSetId() {
    return this.setId;
  }

  public void setSetId(int setId) {
    this.setId = setId;
  }

  public long getReportIndex() {
    return this.reportIndex;
  }

  public void setReportIndex(long reportIndex) {
    this.reportIndex = reportIndex;
  }

  public int getBizId() {
    return this.bizId;
  }

  public void setBizId(int bizId) {
    this.bizId = bizId;
  }

  public String getExecType() {
    return this.execType;
  }

  public void setExecType(String execType) {
    this.execType = execType;
  }

  public String getBizPbu() {
    return this.bizPbu;
  }

  public void setBizPbu(String bizPbu) {
    this.bizPbu = bizPbu;
  }

  public String getClOrdId() {
    return this.clOrdId;
  }

  public void setClOrdId(String clOrdId) {
    this.clOrdId = clOrdId;
  }

  public String getSecurityId() {
    return this.securityId;
  }

  public void setSecurityId(String securityId) {
    this.securityId = securityId;
  }

  public String getAccount() {
    return this.account;
  }

  public void setAccount(String account) {
    this.account = account;
  }

  public byte getOwnerType() {
    return this.ownerType;
  }

  public void setOwnerType(byte ownerType) {
    this.ownerType = ownerType;
  }

  public long getOrderEntryTime() {
    return this.orderEntryTime;
  }

  public void setOrderEntryTime(long orderEntryTime) {
    this.orderEntryTime = orderEntryTime;
  }

  public long getLastPx() {
    return this.lastPx;
  }

  public void setLastPx(long lastPx) {
    this.lastPx = lastPx;
  }

  public long getLastQty() {
    return this.lastQty;
  }

  public void setLastQty(long lastQty) {
    this.lastQty = lastQty;
  }

  public long getGrossTradeAmt() {
    return this.grossTradeAmt;
  }

  public void setGrossTradeAmt(long grossTradeAmt) {
    this.grossTradeAmt = grossTradeAmt;
  }

  public String getSide() {
    return this.side;
  }

  public void setSide(String side) {
    this.side = side;
  }

  public long getOrderQty() {
    return this.orderQty;
  }

  public void setOrderQty(long orderQty) {
    this.orderQty = orderQty;
  }

  public long getLeavesQty() {
    return this.leavesQty;
  }

  public void setLeavesQty(long leavesQty) {
    this.leavesQty = leavesQty;
  }

  public String getOrdStatus() {
    return this.ordStatus;
  }

  public void setOrdStatus(String ordStatus) {
    this.ordStatus = ordStatus;
  }

  public String getCreditTag() {
    return this.creditTag;
  }

  public void setCreditTag(String creditTag) {
    this.creditTag = creditTag;
  }

  public String getClearingFirm() {
    return this.clearingFirm;
  }

  public void setClearingFirm(String clearingFirm) {
    this.clearingFirm = clearingFirm;
  }

  public String getBranchId() {
    return this.branchId;
  }

  public void setBranchId(String branchId) {
    this.branchId = branchId;
  }

  public String getTrdCnfmId() {
    return this.trdCnfmId;
  }

  public void setTrdCnfmId(String trdCnfmId) {
    this.trdCnfmId = trdCnfmId;
  }

  public String getOrdCnfmId() {
    return this.ordCnfmId;
  }

  public void setOrdCnfmId(String ordCnfmId) {
    this.ordCnfmId = ordCnfmId;
  }

  public int getTradeDate() {
    return this.tradeDate;
  }

  public void setTradeDate(int tradeDate) {
    this.tradeDate = tradeDate;
  }

  public long getTransactTime() {
    return this.transactTime;
  }

  public void setTransactTime(long transactTime) {
    this.transactTime = transactTime;
  }

  public String getUserInfo() {
    return this.userInfo;
  }

  public void setUserInfo(String userInfo) {
    this.userInfo = userInfo;
  }

  @Override
  public void encode(ByteBuf byteBuf) {
    writeFixedString(byteBuf, this.pbu, 8);
    byteBuf.writeInt(this.setId);
    byteBuf.writeLong(this.reportIndex);
    byteBuf.writeInt(this.bizId);
    writeFixedString(byteBuf, this.execType, 1);
    writeFixedString(byteBuf, this.bizPbu, 8);
    writeFixedString(byteBuf, this.clOrdId, 10);
    writeFixedString(byteBuf, this.securityId, 12);
    writeFixedString(byteBuf, this.account, 13);
    byteBuf.writeByte(this.ownerType);
    byteBuf.writeLong(this.orderEntryTime);
    byteBuf.writeLong(this.lastPx);
    byteBuf.writeLong(this.lastQty);
    byteBuf.writeLong(this.grossTradeAmt);
    writeFixedString(byteBuf, this.side, 1);
    byteBuf.writeLong(this.orderQty);
    byteBuf.writeLong(this.leavesQty);
    writeFixedString(byteBuf, this.ordStatus, 1);
    writeFixedString(byteBuf, this.creditTag, 2);
    writeFixedString(byteBuf, this.clearingFirm, 8);
    writeFixedString(byteBuf, this.branchId, 8);
    writeFixedString(byteBuf, this.trdCnfmId, 16);
    writeFixedString(byteBuf, this.ordCnfmId, 16);
    byteBuf.writeInt(this.tradeDate);
    byteBuf.writeLong(this.transactTime);
    writeFixedString(byteBuf, this.userInfo, 32);
  }

  @Override
  public void decode(ByteBuf byteBuf) {
    this.pbu = readFixedString(byteBuf, 8);
    this.setId = byteBuf.readInt();
    this.reportIndex = byteBuf.readLong();
    this.bizId = byteBuf.readInt();
    this.execType = readFixedString(byteBuf, 1);
    this.bizPbu = readFixedString(byteBuf, 8);
    this.clOrdId = readFixedString(byteBuf, 10);
    this.securityId = readFixedString(byteBuf, 12);
    this.account = readFixedString(byteBuf, 13);
    this.ownerType = byteBuf.readByte();
    this.orderEntryTime = byteBuf.readLong();
    this.lastPx = byteBuf.readLong();
    this.lastQty = byteBuf.readLong();
    this.grossTradeAmt = byteBuf.readLong();
    this.side = readFixedString(byteBuf, 1);
    this.orderQty = byteBuf.readLong();
    this.leavesQty = byteBuf.readLong();
    this.ordStatus = readFixedString(byteBuf, 1);
    this.creditTag = readFixedString(byteBuf, 2);
    this.clearingFirm = readFixedString(byteBuf, 8);
    this.branchId = readFixedString(byteBuf, 8);
    this.trdCnfmId = readFixedString(byteBuf, 16);
    this.ordCnfmId = readFixedString(byteBuf, 16);
    this.tradeDate = byteBuf.readInt();
    this.transactTime = byteBuf.readLong();
    this.userInfo = readFixedString(byteBuf, 32);
  }

  @Override
  public int hashCode() {
    return Objects.hash(
        pbu,
        setId,
        reportIndex,
        bizId,
        execType,
        bizPbu,
        clOrdId,
        securityId,
        account,
        ownerType,
        orderEntryTime,
        lastPx,
        lastQty,
        grossTradeAmt,
        side,
        orderQty,
        leavesQty,
        ordStatus,
        creditTag,
        clearingFirm,
        branchId,
        trdCnfmId,
        ordCnfmId,
        tradeDate,
        transactTime,
        userInfo);
  }

  @Override
  public boolean equals(Object obj) {
    if (this == obj) {
      return true;
    }
    if (null == obj || getClass() != obj.getClass()) {
      return false;
    }
    Report orther_ = (Report) obj;
    return Objects.equals(pbu, orther_.pbu)
        && Objects.equals(setId, orther_.setId)
        && Objects.equals(reportIndex, orther_.reportIndex)
        && Objects.equals(bizId, orther_.bizId)
        && Objects.equals(execType, orther_.execType)
        && Objects.equals(bizPbu, orther_.bizPbu)
        && Objects.equals(clOrdId, orther_.clOrdId)
        && Objects.equals(securityId, orther_.securityId)
        && Objects.equals(account, orther_.account)
        && Objects.equals(ownerType, orther_.ownerType)
        && Objects.equals(orderEntryTime, orther_.orderEntryTime)
        && Objects.equals(lastPx, orther_.lastPx)
        && Objects.equals(lastQty, orther_.lastQty)
        && Objects.equals(grossTradeAmt, orther_.grossTradeAmt)
        && Objects.equals(side, orther_.side)
        && Objects.equals(orderQty, orther_.orderQty)
        && Objects.equals(leavesQty, orther_.leavesQty)
        && Objects.equals(ordStatus, orther_.ordStatus)
        && Objects.equals(creditTag, orther_.creditTag)
        && Objects.equals(clearingFirm, orther_.clearingFirm)
        && Objects.equals(branchId, orther_.branchId)
        && Objects.equals(trdCnfmId, orther_.trdCnfmId)
        && Objects.equals(ordCnfmId, orther_.ordCnfmId)
        && Objects.equals(tradeDate, orther_.tradeDate)
        && Objects.equals(transactTime, orther_.transactTime)
        && Objects.equals(userInfo, orther_.userInfo);
  }

  @Override
  public String toString() {
    return ""Report [""
        + ""pbu=""
        + this.pbu
        + "", setId=""
        + this.setId
        + "", reportIndex=""
        + this.reportIndex
        + "", bizId=""
        + this.bizId
        + "", execType=""
        + this.execType
        + "", bizPbu=""
        + this.bizPbu
        + "", clOrdId=""
        + this.clOrdId
        + "", securityId=""
        + this.securityId
        + "", account=""
        + this.account
        + "", ownerType=""
        + this.ownerType
        + "", orderEntryTime=""
        + this.orderEntryTime
        + "", lastPx=""
        + this.lastPx
        + "", lastQty=""
        + this.lastQty
        + "", grossTradeAmt=""
        + this.grossTradeAmt
        + "", side=""
        + this.side
        + "", orderQty=""
        + this.orderQty
        + "", leavesQty=""
        + this.leavesQty
        + "", ordStatus=""
        + this.ordStatus
        + "", creditTag=""
        + this.creditTag
        + "", clearingFirm=""
        + this.clearingFirm
        + "", branchId=""
        + this.branchId
        + "", trdCnfmId=""
        + this.trdCnfmId
        + "", ordCnfmId=""
        + this.ordCnfmId
        + "", tradeDate=""
        + this.tradeDate
        + "", transactTime=""
        + this.transactTime
        + "", userInfo=""
        + this.userInfo
        + ""]"";
  }
}
".

(* sse-bin/src/main/java/com/finproto/sse/bin/messages/SseBinary.java *)
Definition text_sse_SseBinary : text :=
"// Code generated by fin-protoc. DO NOT EDIT.
package com.finproto.sse.bin.messages;

import com.finproto.codec.BinaryCodec;
import com.finproto.codec.ChecksumService;
import com.finproto.codec.ChecksumServiceFactory;
import io.netty.buffer.ByteBuf;
import java.util.HashMap;
import java.util.Map;
import java.util.Objects;
import java.util.function.Supplier;

public class SseBinary implements BinaryCodec {
  private int msgType;
  private long msgSeqNum;
  private int msgBodyLen;
  private BinaryCodec body;
  private int checksum;

  public int getMsgType() {
    return this.msgType;
  }

  public void setMsgType(int msgType) {
    this.msgType = msgType;
  }

  public long getMsgSeqNum() {
    return this.msgSeqNum;
  }

  public void setMsgSeqNum(long msgSeqNum) {
    this.msgSeqNum = msgSeqNum;
  }

  public int getMsgBodyLen() {
    return this.msgBodyLen;
  }

  public void setMsgBodyLen(int msgBodyLen) {
    this.msgBodyLen = msgBodyLen;
  }

  public BinaryCodec getBody() {
    return this.body;
  }

  public void setBody(BinaryCodec body) {
    this.body = body;
  }

  public int getChecksum() {
    return this.checksum;
  }

  public void setChecksum(int checksum) {
    this.checksum = checksum;
  }

  @Override
  public void encode(ByteBuf byteBuf) {
    byteBuf.writeInt(this.msgType);
    byteBuf.writeLong(this.msgSeqNum);
    int msgBodyLenPos = byteBuf.writerIndex();
    byteBuf.writeInt(0);

    int bodyStart = byteBuf.writerIndex();
    if (this.body != null) {
      this.body.encode(byteBuf);
    }
    int bodyEnd = byteBuf.writerIndex();
    this.msgBodyLen = (int) (bodyEnd - bodyStart);
    byteBuf.setInt(msgBodyLenPos, this.msgBodyLen);
    ChecksumService<ByteBuf, Integer> checksumService =
        ChecksumServiceFactory.getInstance().getChecksumService(""SSE_BIN"");
    if (checksumService != null) {
      this.checksum = (int) checksumService.calc(byteBuf);
    }
    byteBuf.writeInt(this.checksum);
  }

  @Override
  public void decode(ByteBuf byteBuf) {
    this.msgType = byteBuf.readInt();
    this.msgSeqNum = byteBuf.readLong();
    this.msgBodyLen = byteBuf.readInt();
    this.body = BodyMessageFactory.getInstance().create(this.msgType);
    this.body.decode(byteBuf);
    this.checksum = byteBuf.readInt();
  }

  @Override
  public int hashCode() {
    return Objects.hash(msgType, msgSeqNum, msgBodyLen, body, checksum);
  }

  @Override
  public boolean equals(Object obj) {
    if (this == obj) {
      return true;
    }
    if (null == obj || getClass() != obj.getClass()) {
      return false;
    }
    SseBinary orther_ = (SseBinary) obj;
    return Objects.equals(msgType, orther_.msgType)
        && Objects.equals(msgSeqNum, orther_.msgSeqNum)
        && Objects.equals(msgBodyLen, orther_.msgBodyLen)
        && Objects.equals(body, orther_.body)
        && Objects.equals(checksum, orther_.checksum);
  }

  @Override
  public String toString() {
    return ""SseBinary [""
        + ""msgType=""
        + this.msgType
        + "", msgSeqNum=""
        + this.msgSeqNum
        + "", msgBodyLen=""
        + this.msgBodyLen
        + "", body=""
        + this.body
        + "", checksum=""
        + this.checksum
        + ""]"";
  }

  public static enum BodyMessageFactory {
    INSTANCE;
    private final Map<Integer, Supplier<BinaryCodec>> bodyMap = new HashMap<>();
    private final Map<Class<?>, Integer> reverseMap = new HashMap<>();

    public enum MessageType {
      HEARTBEAT(33),
      LOGON(40),
      LOGOUT(41),
      NEW_ORDER_SINGLE(58),
      ORDER_CANCEL(61),
      CONFIRM(32),
      CANCEL_REJECT(59),
      REPORT(103),
      ORDER_REJECT(204),
      PLATFORM_STATE(209),
      EXEC_RPT_INFO(208),
      EXEC_RPT_SYNC(206),
      EXEC_RPT_SYNC_RSP(207),
      EXEC_RPT_END_OF_STREAM(210);

      private final int value;

      MessageType(int value) {
        this.value = value;
      }

      public int getValue() {
        return value;
      }

      public static MessageType fromValue(int value) {
        for (MessageType type : values()) {
          if (type.value == value) {
            return type;
          }
        }
        throw new IllegalArgumentException(""Unknown MessageType value: "" + value);
      }
    }

    static {
      getInstance().register(Heartbeat.class, MessageType.HEARTBEAT.getValue(), Heartbeat::new);
      getInstance().register(Logon.class, MessageType.LOGON.getValue(), Logon::new);
      getInstance().register(Logout.class, MessageType.LOGOUT.getValue(), Logout::new);
      getInstance()
          .register(
              NewOrderSingle.class, MessageType.NEW_ORDER_SINGLE.getValue(), NewOrderSingle::new);
      getInstance()
          .register(OrderCancel.class, MessageType.ORDER_CANCEL.getValue(), OrderCancel::new);
      getInstance().register(Confirm.class, MessageType.CONFIRM.getValue(), Confirm::new);
      getInstance()
          .register(CancelReject.class, MessageType.CANCEL_REJECT.getValue(), CancelReject::new);
      getInstance().register(Report.class, MessageType.REPORT.getValue(), Report::new);
      getInstance()
          .register(OrderReject.class, MessageType.ORDER_REJECT.getValue(), OrderReject::new);
      getInstance()
          .register(PlatformState.class, MessageType.PLATFORM_STATE.getValue(), PlatformState::new);
      getInstance()
          .register(ExecRptInfo.class, MessageType.EXEC_RPT_INFO.getValue(), ExecRptInfo::new);
      getInstance()
          .register(ExecRptSync.class, MessageType.EXEC_RPT_SYNC.getValue(), ExecRptSync::new);
      getInstance()
          .register(
              ExecRptSyncRsp.class, MessageType.EXEC_RPT_SYNC_RSP.getValue(), ExecRptSyncRsp::new);
      getInstance()
          .register(
              ExecRptEndOfStream.class,
              MessageType.EXEC_RPT_END_OF_STREAM.getValue(),
              ExecRptEndOfStream::new);
    }

    public BinaryCodec create(Integer msgType) {
      Supplier<BinaryCodec> supplier = bodyMap.get(msgType);
      if (null == supplier) {
        throw new IllegalArgumentException(""Unsupported MsgType:"" + msgType);
      }
      return supplier.get();
    }

    public void register(Class<?> clazz, Integer msgType, Supplier<BinaryCodec> supplier) {
      bodyMap.put(msgType, supplier);
      reverseMap.put(clazz, msgType);
    }

    public boolean remove(Integer msgType) {
      return null != bodyMap.remove(msgType);
    }

    public Integer getMsgType(Class<?> clazz) {
      return reverseMap.get(clazz);
    }

    public static BodyMessageFactory getInstance() {
      return INSTANCE;
    }
  }
}
".

