(* GENERATED by tools/mksrc.py: the files of /repo/szse-bin/src/main/java, verbatim. *)
From Verif.Java Require Import Text.
Open Scope text_scope.

(* szse-bin/src/main/java/com/finproto/szse/bin/messages/BusinessReject.java *)
Definition text_szse_BusinessReject : text :=
"// Code generated by fin-protoc. DO NOT EDIT.
package com.finproto.szse.bin.messages;

import com.finproto.codec.BinaryCodec;
import io.netty.buffer.ByteBuf;
import java.util.Objects;

public class BusinessReject implements BinaryCodec {
  private String applId;
  private long transactTime;
  private String submittingPbuid;
  private String securityId;
  private String securityIdsource;
  private long refSeqNum;
  private int refMsgType;
  private String businessRejectRefId;
  private short businessRejectReason;
  private String businessRejectText;

  public String getApplId() {
    return this.applId;
  }

  public void setApplId(String applId) {
    this.applId = applId;
  }

  public long getTransactTime() {
    return this.transactTime;
  }

  public void setTransactTime(long transactTime) {
    this.transactTime = transactTime;
  }

  public String getSubmittingPbuid() {
    return this.submittingPbuid;
  }

  public void setSubmittingPbuid(String submittingPbuid) {
    this.submittingPbuid = submittingPbuid;
  }

  public String getSecurityId() {
    return this.securityId;
  }

  public void setSecurityId(String securityId) {
    this.securityId = securityId;
  }

  public String getSecurityIdsource() {
    return this.securityIdsource;
  }

  public void setSecurityIdsource(String securityIdsource) {
    this.securityIdsource = securityIdsource;
  }

  public long getRefSeqNum() {
    return this.refSeqNum;
  }

  public void setRefSeqNum(long refSeqNum) {
    this.refSeqNum = refSeqNum;
  }

  public int getRefMsgType() {
    return this.refMsgType;
  }

  public void setRefMsgType(int refMsgType) {
    this.refMsgType = refMsgType;
  }

  public String getBusinessRejectRefId() {
    return this.businessRejectRefId;
  }

  public void setBusinessRejectRefId(String businessRejectRefId) {
    this.businessRejectRefId = businessRejectRefId;
  }

  public short getBusinessRejectReason() {
    return this.businessRejectReason;
  }

  public void setBusinessRejectReason(short businessRejectReason) {
    this.businessRejectReason = businessRejectReason;
  }

  public String getBusinessRejectText() {
    return this.businessRejectText;
  }

  public void setBusinessRejectText(String businessRejectText) {
    this.businessRejectText = businessRejectText;
  }

  @Override
  public void encode(ByteBuf byteBuf) {
    writeFixedString(byteBuf, this.applId, 3);
    byteBuf.writeLong(this.transactTime);
    writeFixedString(byteBuf, this.submittingPbuid, 6);
    writeFixedString(byteBuf, this.securityId, 8);
    writeFixedString(byteBuf, this.securityIdsource, 4);
    byteBuf.writeLong(this.refSeqNum);
    byteBuf.writeInt(this.refMsgType);
    writeFixedString(byteBuf, this.businessRejectRefId, 10);
    byteBuf.writeShort(this.businessRejectReason);
    writeFixedString(byteBuf, this.businessRejectText, 50);
  }

  @Override
  public void decode(ByteBuf byteBuf) {
    this.applId = readFixedString(byteBuf, 3);
    this.transactTime = byteBuf.readLong();
    this.submittingPbuid = readFixedString(byteBuf, 6);
    this.securityId = readFixedString(byteBuf, 8);
    this.securityIdsource = readFixedString(byteBuf, 4);
    this.refSeqNum = byteBuf.readLong();
    this.refMsgType = byteBuf.readInt();
    this.businessRejectRefId = readFixedString(byteBuf, 10);
    this.businessRejectReason = byteBuf.readShort();
    this.businessRejectText = readFixedString(byteBuf, 50);
  }

  @Override
  public int hashCode() {
    return Objects.hash(
        applId,
        transactTime,
        submittingPbuid,
        securityId,
        securityIdsource,
        refSeqNum,
        refMsgType,
        businessRejectRefId,
        businessRejectReason,
        businessRejectText);
  }

  @Override
  public boolean equals(Object obj) {
    if (this == obj) {
      return true;
    }
    if (null == obj || getClass() != obj.getClass()) {
      return false;
    }
    BusinessReject orther_ = (BusinessReject) obj;
    return Objects.equals(applId, orther_.applId)
        && Objects.equals(transactTime, orther_.transactTime)
        && Objects.equals(submittingPbuid, orther_.submittingPbuid)
        && Objects.equals(securityId, orther_.securityId)
        && Objects.equals(securityIdsource, orther_.securityIdsource)
        && Objects.equals(refSeqNum, orther_.refSeqNum)
        && Objects.equals(refMsgType, orther_.refMsgType)
        && Objects.equals(businessRejectRefId, orther_.businessRejectRefId)
        && Objects.equals(businessRejectReason, orther_.businessRejectReason)
        && Objects.equals(businessRejectText, orther_.businessRejectText);
  }

  @Override
  public String toString() {
    return ""BusinessReject [""
        + ""applId=""
        + this.applId
        + "", transactTime=""
        + this.transactTime
        + "", submittingPbuid=""
        + this.submittingPbuid
        + "", securityId=""
        + this.securityId
        + "", securityIdsource=""
        + this.securityIdsource
        + "", refSeqNum=""
        + this.refSeqNum
        + "", refMsgType=""
        + this.refMsgType
        + "", businessRejectRefId=""
        + this.businessRejectRefId
        + "", businessRejectReason=""
        + this.businessRejectReason
        + "", businessRejectText=""
        + this.businessRejectText
        + ""]"";
  }
}
".

(* szse-bin/src/main/java/com/finproto/szse/bin/messages/CancelReject.java *)
Definition text_szse_CancelReject : text :=
"// Code generated by fin-protoc. DO NOT EDIT.
package com.finproto.szse.bin.messages;

import com.finproto.codec.BinaryCodec;
import io.netty.buffer.ByteBuf;
import java.util.Objects;

public class CancelReject implements BinaryCodec {
  private int partitionNo;
  private long reportIndex;
  private String applId;
  private String reportingPbuid;
  private String submittingPbuid;
  private String securityId;
  private String securityIdsource;
  private short ownerType;
  private String clearingFirm;
  private long transactTime;
  private String userInfo;
  private String clOrdId;
  private String origClOrdId;
  private String side;
  private String ordStatus;
  private short cxlRejReason;
  private String rejectText;
  private String orderId;

  public int getPartitionNo() {
    return this.partitionNo;
  }

  public void setPartitionNo(int partitionNo) {
    this.partitionNo = partitionNo;
  }

  public long getReportIndex() {
    return this.reportIndex;
  }

  public void setReportIndex(long reportIndex) {
    this.reportIndex = reportIndex;
  }

  public String getApplId() {
    return this.applId;
  }

  public void setApplId(String applId) {
    this.applId = applId;
  }

  public String getReportingPbuid() {
    return this.reportingPbuid;
  }

  public void setReportingPbuid(String reportingPbuid) {
    this.reportingPbuid = reportingPbuid;
  }

  public String getSubmittingPbuid() {
    return this.submittingPbuid;
  }

  public void setSubmittingPbuid(String submittingPbuid) {
    this.submittingPbuid = submittingPbuid;
  }

  public String getSecurityId() {
    return this.securityId;
  }

  public void setSecurityId(String securityId) {
    this.securityId = securityId;
  }

  public String getSecurityIdsource() {
    return this.securityIdsource;
  }

  public void setSecurityIdsource(String securityIdsource) {
    this.securityIdsource = securityIdsource;
  }

  public short getOwnerType() {
    return this.ownerType;
  }

  public void setOwnerType(short ownerType) {
    this.ownerType = ownerType;
  }

  public String getClearingFirm() {
    return this.clearingFirm;
  }

  public void setClearingFirm(String clearingFirm) {
    this.clearingFirm = clearingFirm;
  }

  public long getTransactTime() {
    return this.transactTime;
  }

  public void setTransactTime(long transactTime) {
    this.transactTime = transactTime;
  }

  public String getUserInfo() {
    return this.userInfo;
  }

  public void setUserInfo(String userInfo) {
    this.userInfo = userInfo;
  }

  public String getClOrdId() {
    return this.clOrdId;
  }

  public void setClOrdId(String clOrdId) {
    this.clOrdId = clOrdId;
  }

  public String getOrigClOrdId() {
    return this.origClOrdId;
  }

  public void setOrigClOrdId(String origClOrdId) {
    this.origClOrdId = origClOrdId;
  }

  public String getSide() {
    return this.side;
  }

  public void setSide(String side) {
    this.side = side;
  }

  public String getOrdStatus() {
    return this.ordStatus;
  }

  public void setOrdStatus(String ordStatus) {
    this.ordStatus = ordStatus;
  }

  public short getCxlRejReason() {
    return this.cxlRejReason;
  }

  public void setCxlRejReason(short cxlRejReason) {
    this.cxlRejReason = cxlRejReason;
  }

  public String getRejectText() {
    return this.rejectText;
  }

  public void setRejectText(String rejectText) {
    this.rejectText = rejectText;
  }

  public String getOrderId() {
    return this.orderId;
  }

  public void setOrderId(String orderId) {
    this.orderId = orderId;
  }

  @Override
  public void encode(ByteBuf byteBuf) {
    byteBuf.writeInt(this.partitionNo);
    byteBuf.writeLong(this.reportIndex);
    writeFixedString(byteBuf, this.applId, 3);
    writeFixedString(byteBuf, this.reportingPbuid, 6);
    writeFixedString(byteBuf, this.submittingPbuid, 6);
    writeFixedString(byteBuf, this.securityId, 8);
    writeFixedString(byteBuf, this.securityIdsource, 4);
    byteBuf.writeShort(this.ownerType);
    writeFixedString(byteBuf, this.clearingFirm, 2);
    byteBuf.writeLong(this.transactTime);
    writeFixedString(byteBuf, this.userInfo, 8);
    writeFixedString(byteBuf, this.clOrdId, 10);
    writeFixedString(byteBuf, this.origClOrdId, 10);
    writeFixedString(byteBuf, this.side, 1);
    writeFixedString(byteBuf, this.ordStatus, 1);
    byteBuf.writeShort(this.cxlRejReason);
    writeFixedString(byteBuf, this.rejectText, 16);
    writeFixedString(byteBuf, this.orderId, 16);
  }

  @Override
  public void decode(ByteBuf byteBuf) {
    this.partitionNo = byteBuf.readInt();
    this.reportIndex = byteBuf.readLong();
    this.applId = readFixedString(byteBuf, 3);
    this.reportingPbuid = readFixedString(byteBuf, 6);
    this.submittingPbuid = readFixedString(byteBuf, 6);
    this.securityId = readFixedString(byteBuf, 8);
    this.securityIdsource = readFixedString(byteBuf, 4);
    this.ownerType = byteBuf.readShort();
    this.clearingFirm = readFixedString(byteBuf, 2);
    this.transactTime = byteBuf.readLong();
    this.userInfo = readFixedString(byteBuf, 8);
    this.clOrdId = readFixedString(byteBuf, 10);
    this.origClOrdId = readFixedString(byteBuf, 10);
    this.side = readFixedString(byteBuf, 1);
    this.ordStatus = readFixedString(byteBuf, 1);
    this.cxlRejReason = byteBuf.readShort();
    this.rejectText = readFixedString(byteBuf, 16);
    this.orderId = readFixedString(byteBuf, 16);
  }

  @Override
  public int hashCode() {
    return Objects.hash(
        partitionNo,
        reportIndex,
        applId,
        reportingPbuid,
        submittingPbuid,
        securityId,
        securityIdsource,
        ownerType,
        clearingFirm,
        transactTime,
        userInfo,
        clOrdId,
        origClOrdId,
        side,
        ordStatus,
        cxlRejReason,
        rejectText,
        orderId);
  }

  @Override
  public boolean equals(Object obj) {
    if (this == obj) {
      return true;
    }
    if (null == obj || getClass() != obj.getClass()) {
      return false;
    }
    CancelReject orther_ = (CancelReject) obj;
    return Objects.equals(partitionNo, orther_.partitionNo)
        && Objects.equals(reportIndex, orther_.reportIndex)
        && Objects.equals(applId, orther_.applId)
        && Objects.equals(reportingPbuid, orther_.reportingPbuid)
        && Objects.equals(submittingPbuid, orther_.submittingPbuid)
        && Objects.equals(securityId, orther_.securityId)
        && Objects.equals(securityIdsource, orther_.securityIdsource)
        && Objects.equals(ownerType, orther_.ownerType)
        && Objects.equals(clearingFirm, orther_.clearingFirm)
        && Objects.equals(transactTime, orther_.transactTime)
        && Objects.equals(userInfo, orther_.userInfo)
        && Objects.equals(clOrdId, orther_.clOrdId)
        && Objects.equals(origClOrdId, orther_.origClOrdId)
        && Objects.equals(side, orther_.side)
        && Objects.equals(ordStatus, orther_.ordStatus)
        && Objects.equals(cxlRejReason, orther_.cxlRejReason)
        && Objects.equals(rejectText, orther_.rejectText)
        && Objects.equals(orderId, orther_.orderId);
  }

  @Override
  public String toString() {
    return ""CancelReject [""
        + ""partitionNo=""
        + this.partitionNo
        + "", reportIndex=""
        + this.reportIndex
        + "", applId=""
        + this.applId
        + "", reportingPbuid=""
        + this.reportingPbuid
        + "", submittingPbuid=""
        + this.submittingPbuid
        + "", securityId=""
        + this.securityId
        + "", securityIdsource=""
        + this.securityIdsource
        + "", ownerType=""
        + this.ownerType
        + "", clearingFirm=""
        + this.clearingFirm
        + "", transactTime=""
        + this.transactTime
        + "", userInfo=""
        + this.userInfo
        + "", clOrdId=""
        + this.clOrdId
        + "", origClOrdId=""
        + this.origClOrdId
        + "", side=""
        + this.side
        + "", ordStatus=""
        + this.ordStatus
        + "", cxlRejReason=""
        + this.cxlRejReason
        + "", rejectText=""
        + this.rejectText
        + "", orderId=""
        + this.orderId
        + ""]"";
  }
}
".

(* szse-bin/src/main/java/com/finproto/szse/bin/messages/ExecutionConfirm.java *)
Definition text_szse_ExecutionConfirm : text :=
"// Code generated by fin-protoc. DO NOT EDIT.
package com.finproto.szse.bin.messages;

import com.finproto.codec.BinaryCodec;
import io.netty.buffer.ByteBuf;
import java.util.HashMap;
import java.util.Map;
import java.util.Objects;
import java.util.function.Supplier;

public class ExecutionConfirm implements BinaryCodec {
  private int partitionNo;
  private long reportIndex;
  private String applId;
  private String reportingPbuid;
  private String submittingPbuid;
  private String securityId;
  private String securityIdsource;
  private short ownerType;
  private String clearingFirm;
  private long transactTime;
  private String userInfo;
  private String orderId;
  private String clOrdId;
  private String quoteMsgId;
  private String origClOrdId;
  private String execId;
  private String execType;
  private String ordStatus;
  private short ordRejReason;
  private long leavesQty;
  private long cumQty;
  private String side;
  private String ordType;
  private long orderQty;
  private long price;
  private String accountId;
  private String branchId;
  private String orderRestrictions;
  private BinaryCodec applExtend;

  public int getPartitionNo() {
    return this.partitionNo;
  }

  public void setPartitionNo(int partitionNo) {
    this.partitionNo = partitionNo;
  }

  public long getReportIndex() {
    return this.reportIndex;
  }

  public void setReportIndex(long reportIndex) {
    this.reportIndex = reportIndex;
  }

  public String getApplId() {
    return this.applId;
  }

  public void setApplId(String applId) {
    this.applId = applId;
  }

  public String getReportingPbuid() {
    return this.reportingPbuid;
  }

  public void setReportingPbuid(String reportingPbuid) {
    this.reportingPbuid = reportingPbuid;
  }

  public String getSubmittingPbuid() {
    return this.submittingPbuid;
  }

  public void setSubmittingPbuid(String submittingPbuid) {
    this.submittingPbuid = submittingPbuid;
  }

  public String getSecurityId() {
    return this.securityId;
  }

  public void setSecurityId(String securityId) {
    this.securityId = securityId;
  }

  public String getSecurityIdsource() {
    return this.securityIdsource;
  }

  public void setSecurityIdsource(String securityIdsource) {
    this.securityIdsource = securityIdsource;
  }

  public short getOwnerType() {
    return this.ownerType;
  }

  public void setOwnerType(short ownerType) {
    this.ownerType = ownerType;
  }

  public String getClearingFirm() {
    return this.clearingFirm;
  }

  public void setClearingFirm(String clearingFirm) {
    this.clearingFirm = clearingFirm;
  }

  public long getTransactTime() {
    return this.transactTime;
  }

  public void setTransactTime(long transactTime) {
    this.transactTime = transactTime;
  }

  public String getUserInfo() {
    return this.userInfo;
  }

  public void setUserInfo(String userInfo) {
    this.userInfo = userInfo;
  }

  public String getOrderId() {
    return this.orderId;
  }

  public void setOrderId(String orderId) {
    this.orderId = orderId;
  }

  public String getClOrdId() {
    return this.clOrdId;
  }

  public void setClOrdId(String clOrdId) {
    this.clOrdId = clOrdId;
  }

  public String getQuoteMsgId() {
    return this.quoteMsgId;
  }

  public void setQuoteMsgId(String quoteMsgId) {
    this.quoteMsgId = quoteMsgId;
  }

  public String getOrigClOrdId() {
    return this.origClOrdId;
  }

  public void setOrigClOrdId(String origClOrdId) {
    this.origClOrdId = origClOrdId;
  }

  public String getExecId() {
    return this.execId;
  }

  public void setExecId(String execId) {
    this.execId = execId;
  }

  public String getExecType() {
    return this.execType;
  }

  public void setExecType(String execType) {
    this.execType = execType;
  }

  public String getOrdStatus() {
    return this.ordStatus;
  }

  public void setOrdStatus(String ordStatus) {
    this.ordStatus = ordStatus;
  }

  public short getOrdRejReason() {
    return this.ordRejReason;
  }

  public void setOrdRejReason(short ordRejReason) {
    this.ordRejReason = ordRejReason;
  }

  public long getLeavesQty() {
    return this.leavesQty;
  }

  public void setLeavesQty(long leavesQty) {
    this.leavesQty = leavesQty;
  }

  public long getCumQty() {
    return this.cumQty;
  }

  public void setCumQty(long cumQty) {
    this.cumQty = cumQty;
  }

  public String getSide() {
    return this.side;
  }

  public void setSide(String side) {
    this.side = side;
  }

  public String getOrdType() {
    return this.ordType;
  }

  public void setOrdType(String ordType) {
    this.ordType = ordType;
  }

  public long getOrderQty() {
    return this.orderQty;
  }

  public void setOrderQty(long orderQty) {
    this.orderQty = orderQty;
  }

  public long getPrice() {
    return this.price;
  }

  public void setPrice(long price) {
    this.price = price;
  }

  public String getAccountId() {
    return this.accountId;
  }

  public void setAccountId(String accountId) {
    this.accountId = accountId;
  }

  public String getBranchId() {
    return this.branchId;
  }

  public void setBranchId(String branchId) {
    this.branchId = branchId;
  }

  public String getOrderRestrictions() {
    return this.orderRestrictions;
  }

  public void setOrderRestrictions(String orderRestrictions) {
    this.orderRestrictions = orderRestrictions;
  }

  public BinaryCodec getApplExtend() {
    return this.applExtend;
  }

  public void setApplExtend(BinaryCodec applExtend) {
    this.applExtend = applExtend;
  }

  @Override
  public void encode(ByteBuf byteBuf) {
    byteBuf.writeInt(this.partitionNo);
    byteBuf.writeLong(this.reportIndex);
    writeFixedString(byteBuf, this.applId, 3);
    writeFixedString(byteBuf, this.reportingPbuid, 6);
    writeFixedString(byteBuf, this.submittingPbuid, 6);
    writeFixedString(byteBuf, this.securityId, 8);
    writeFixedString(byteBuf, this.securityIdsource, 4);
    byteBuf.writeShort(this.ownerType);
    writeFixedString(byteBuf, this.clearingFirm, 2);
    byteBuf.writeLong(this.transactTime);
    writeFixedString(byteBuf, this.userInfo, 8);
    writeFixedString(byteBuf, this.orderId, 16);
    writeFixedString(byteBuf, this.clOrdId, 10);
    writeFixedString(byteBuf, this.quoteMsgId, 10);
    writeFixedString(byteBuf, this.origClOrdId, 10);
    writeFixedString(byteBuf, this.execId, 16);
    writeFixedString(byteBuf, this.execType, 1);
    writeFixedString(byteBuf, this.ordStatus, 1);
    byteBuf.writeShort(this.ordRejReason);
    byteBuf.writeLong(this.leavesQty);
    byteBuf.writeLong(this.cumQty);
    writeFixedString(byteBuf, this.side, 1);
    writeFixedString(byteBuf, this.ordType, 1);
    byteBuf.writeLong(this.orderQty);
    byteBuf.writeLong(this.price);
    writeFixedString(byteBuf, this.accountId, 12);
    writeFixedString(byteBuf, this.branchId, 4);
    writeFixedString(byteBuf, this.orderRestrictions, 4);
    if (null != this.applExtend) {
      this.applExtend.encode(byteBuf);
    }
  }

  @Override
  public void decode(ByteBuf byteBuf) {
    this.partitionNo = byteBuf.readInt();
    this.reportIndex = byteBuf.readLong();
    this.applId = readFixedString(byteBuf, 3);
    this.reportingPbuid = readFixedString(byteBuf, 6);
    this.submittingPbuid = readFixedString(byteBuf, 6);
    this.securityId = readFixedString(byteBuf, 8);
    this.securityIdsource = readFixedString(byteBuf, 4);
    this.ownerType = byteBuf.readShort();
    this.clearingFirm = readFixedString(byteBuf, 2);
    this.transactTime = byteBuf.readLong();
    this.userInfo = readFixedString(byteBuf, 8);
    this.orderId = readFixedString(byteBuf, 16);
    this.clOrdId = readFixedString(byteBuf, 10);
    this.quoteMsgId = readFixedString(byteBuf, 10);
    this.origClOrdId = readFixedString(byteBuf, 10);
    this.execId = readFixedString(byteBuf, 16);
    this.execType = readFixedString(byteBuf, 1);
    this.ordStatus = readFixedString(byteBuf, 1);
    this.ordRejReason = byteBuf.readShort();
    this.leavesQty = byteBuf.readLong();
    this.cumQty = byteBuf.readLong();
    this.side = readFixedString(byteBuf, 1);
    this.ordType = readFixedString(byteBuf, 1);
    this.orderQty = byteBuf.readLong();
    this.price = byteBuf.readLong();
    this.accountId = readFixedString(byteBuf, 12);
    this.branchId = readFixedString(byteBuf, 4);
    this.orderRestrictions = readFixedString(byteBuf, 4);
    this.applExtend = ApplExtendMessageFactory.getInstance().create(this.applId);
    this.applExtend.decode(byteBuf);
  }

  @Override
  public int hashCode() {
    return Objects.hash(
        partitionNo,
        reportIndex,
        applId,
        reportingPbuid,
        submittingPbuid,
        securityId,
        securityIdsource,
        ownerType,
        clearingFirm,
        transactTime,
        userInfo,
        orderId,
        clOrdId,
        quoteMsgId,
        origClOrdId,
        execId,
        execType,
        ordStatus,
        ordRejReason,
        leavesQty,
        cumQty,
        side,
        ordType,
        orderQty,
        price,
        accountId,
        branchId,
        orderRestrictions,
        applExtend);
  }

  @Override
  public boolean equals(Object obj) {
    if (this == obj) {
      return true;
    }
    if (null == obj || getClass() != obj.getClass()) {
      return false;
    }
    ExecutionConfirm orther_ = (ExecutionConfirm) obj;
    return Objects.equals(partitionNo, orther_.partitionNo)
        && Objects.equals(reportIndex, orther_.reportIndex)
        && Objects.equals(applId, orther_.applId)
        && Objects.equals(reportingPbuid, orther_.reportingPbuid)
        && Objects.equals(submittingPbuid, orther_.submittingPbuid)
        && Objects.equals(securityId, orther_.securityId)
        && Objects.equals(securityIdsource, orther_.securityIdsource)
        && Objects.equals(ownerType, orther_.ownerType)
        && Objects.equals(clearingFirm, orther_.clearingFirm)
        && Objects.equals(transactTime, orther_.transactTime)
        && Objects.equals(userInfo, orther_.userInfo)
        && Objects.equals(orderId, orther_.orderId)
        && Objects.equals(clOrdId, orther_.clOrdId)
        && Objects.equals(quoteMsgId, orther_.quoteMsgId)
        && Objects.equals(origClOrdId, orther_.origClOrdId)
        && Objects.equals(execId, orther_.execId)
        && Objects.equals(execType, orther_.execType)
        && Objects.equals(ordStatus, orther_.ordStatus)
        && Objects.equals(ordRejReason, orther_.ordRejReason)
        && Objects.equals(leavesQty, orther_.leavesQty)
        && Objects.equals(cumQty, orther_.cumQty)
        && Objects.equals(side, orther_.side)
        && Objects.equals(ordType, orther_.ordType)
        && Objects.equals(orderQty, orther_.orderQty)
        && Objects.equals(price, orther_.price)
        && Objects.equals(accountId, orther_.accountId)
        && Objects.equals(branchId, orther_.branchId)
        && Objects.equals(orderRestrictions, orther_.orderRestrictions)
        && Objects.equals(applExtend, orther_.applExtend);
  }

  @Override
  public String toString() {
    return ""ExecutionConfirm [""
        + ""partitionNo=""
        + this.partitionNo
        + "", reportIndex=""
        + this.reportIndex
        + "", applId=""
        + this.applId
        + "", reportingPbuid=""
        + this.reportingPbuid
        + "", submittingPbuid=""
        + this.submittingPbuid
        + "", securityId=""
        + this.securityId
        + "", securityIdsource=""
        + this.securityIdsource
        + "", ownerType=""
        + this.ownerType
        + "", clearingFirm=""
        + this.clearingFirm
        + "", transactTime=""
        + this.transactTime
        + "", userInfo=""
        + this.userInfo
        + "", orderId=""
        + this.orderId
        + "", clOrdId=""
        + this.clOrdId
        + "", quoteMsgId=""
        + this.quoteMsgId
        + "", origClOrdId=""
        + this.origClOrdId
        + "", execId=""
        + this.execId
        + "", execType=""
        + this.execType
        + "", ordStatus=""
        + this.ordStatus
        + "", ordRejReason=""
        + this.ordRejReason
        + "", leavesQty=""
        + this.leavesQty
        + "", cumQty=""
        + this.cumQty
        + "", side=""
        + this.side
        + "", ordType=""
        + this.ordType
        + "", orderQty=""
        + this.orderQty
        + "", price=""
        + this.price
        + "", accountId=""
        + this.accountId
        + "", branchId=""
        + this.branchId
        + "", orderRestrictions=""
        + this.orderRestrictions
        + "", applExtend=""
        + this.applExtend
        + ""]"";
  }

  public static enum ApplExtendMessageFactory {
    INSTANCE;
    private final Map<String, Supplier<BinaryCodec>> applExtendMap = new HashMap<>();

    static {
      getInstance().register(""010"", Extend200102::new);
      getInstance().register(""020"", Extend200202::new);
      getInstance().register(""030"", Extend200302::new);
      getInstance().register(""051"", Extend200502::new);
      getInstance().register(""052"", Extend200502::new);
      getInstance().register(""060"", Extend200602::new);
      getInstance().register(""061"", Extend200602::new);
      getInstance().register(""070"", Extend200702::new);
      getInstance().register(""150"", Extend201502::new);
      getInstance().register(""151"", Extend201502::new);
      getInstance().register(""152"", Extend201502::new);
      getInstance().register(""160"", Extend201602::new);
      getInstance().register(""170"", Extend201702::new);
      getInstance().register(""180"", Extend201802::new);
      getInstance().register(""181"", Extend201802::new);
      getInstance().register(""270"", Extend202702::new);
      getInstance().register(""271"", Extend202702::new);
      getInstance().register(""280"", Extend202802::new);
      getInstance().register(""281"", Extend202802::new);
      getInstance().register(""290"", Extend202902::new);
      getInstance().register(""291"", Extend202902::new);
      getInstance().register(""630"", Extend206302::new);
      getInstance().register(""350"", Extend203502::new);
      getInstance().register(""351"", Extend203502::new);
      getInstance().register(""370"", Extend203702::new);
      getInstance().register(""410"", Extend204102::new);
      getInstance().register(""417"", Extend204129::new);
      getInstance().register(""470"", Extend204702::new);
    }

    public BinaryCodec create(String applId) {
      Supplier<BinaryCodec> supplier = applExtendMap.get(applId);
      if (null == supplier) {
        throw new IllegalArgumentException(""Unsupported ApplID:"" + applId);
      }
      return supplier.get();
    }

    public void register(String applId, Supplier<BinaryCodec> supplier) {
      applExtendMap.put(applId, supplier);
    }

    public boolean remove(String applId) {
      return null != applExtendMap.remove(applId);
    }

    public static ApplExtendMessageFactory getInstance() {
      return INSTANCE;
    }
  }
}
".

(* szse-bin/src/main/java/com/finproto/szse/bin/messages/ExecutionReport.java *)
Definition text_szse_ExecutionReport : text :=
"// Code generated by fin-protoc. DO NOT EDIT.
package com.finproto.szse.bin.messages;

import com.finproto.codec.BinaryCodec;
import io.netty.buffer.ByteBuf;
import java.util.HashMap;
import java.util.Map;
import java.util.Objects;
import java.util.function.Supplier;

public class ExecutionReport implements BinaryCodec {
  private int partitionNo;
  private long reportIndex;
  private String applId;
  private String reportingPbuid;
  private String submittingPbuid;
  private String securityId;
  private String securityIdsource;
  private short ownerType;
  private String clearingFirm;
  private long transactTime;
  private String userInfo;
  private String orderId;
  private String clOrdId;
  private String quoteMsgId;
  private String execId;
  private String execType;
  private String ordStatus;
  private long lastPx;
  private long lastQty;
  private long leavesQty;
  private long cumQty;
  private String side;
  private String accountId;
  private String branchId;
  private BinaryCodec applExtend;

  public int getPartitionNo() {
    return this.partitionNo;
  }

  public void setPartitionNo(int partitionNo) {
    this.partitionNo = partitionNo;
  }

  public long getReportIndex() {
    return this.reportIndex;
  }

  public void setReportIndex(long reportIndex) {
    this.reportIndex = reportIndex;
  }

  public String getApplId() {
    return this.applId;
  }

  public void setApplId(String applId) {
    this.applId = applId;
  }

  public String getReportingPbuid() {
    return this.reportingPbuid;
  }

  public void setReportingPbuid(String reportingPbuid) {
    this.reportingPbuid = reportingPbuid;
  }

  public String getSubmittingPbuid() {
    return this.submittingPbuid;
  }

  public void setSubmittingPbuid(String submittingPbuid) {
    this.submittingPbuid = submittingPbuid;
  }

  public String getSecurityId() {
    return this.securityId;
  }

  public void setSecurityId(String securityId) {
    this.securityId = securityId;
  }

  public String getSecurityIdsource() {
    return this.securityIdsource;
  }

  public void setSecurityIdsource(String securityIdsource) {
    this.securityIdsource = securityIdsource;
  }

  public short getOwnerType() {
    return this.ownerType;
  }

  public void setOwnerType(short ownerType) {
    this.ownerType = ownerType;
  }

  public String getClearingFirm() {
    return this.clearingFirm;
  }

  public void setClearingFirm(String clearingFirm) {
    this.clearingFirm = clearingFirm;
  }

  public long getTransactTime() {
    return this.transactTime;
  }

  public void setTransactTime(long transactTime) {
    this.transactTime = transactTime;
  }

  public String getUserInfo() {
    return this.userInfo;
  }

  public void setUserInfo(String userInfo) {
    this.userInfo = userInfo;
  }

  public String getOrderId() {
    return this.orderId;
  }

  public void setOrderId(String orderId) {
    this.orderId = orderId;
  }

  public String getClOrdId() {
    return this.clOrdId;
  }

  public void setClOrdId(String clOrdId) {
    this.clOrdId = clOrdId;
  }

  public String getQuoteMsgId() {
    return this.quoteMsgId;
  }

  public void setQuoteMsgId(String quoteMsgId) {
    this.quoteMsgId = quoteMsgId;
  }

  public String getExecId() {
    return this.execId;
  }

  public void setExecId(String execId) {
    this.execId = execId;
  }

  public String getExecType() {
    return this.execType;
  }

  public void setExecType(String execType) {
    this.execType = execType;
  }

  public String getOrdStatus() {
    return this.ordStatus;
  }

  public void setOrdStatus(String ordStatus) {
    this.ordStatus = ordStatus;
  }

  public long getLastPx() {
    return this.lastPx;
  }

  public void setLastPx(long lastPx) {
    this.lastPx = lastPx;
  }

  public long getLastQty() {
    return this.lastQty;
  }

  public void setLastQty(long lastQty) {
    this.lastQty = lastQty;
  }

  public long getLeavesQty() {
    return this.leavesQty;
  }

  public void setLeavesQty(long leavesQty) {
    this.leavesQty = leavesQty;
  }

  public long getCumQty() {
    return this.cumQty;
  }

  public void setCumQty(long cumQty) {
    this.cumQty = cumQty;
  }

  public String getSide() {
    return this.side;
  }

  public void setSide(String side) {
    this.side = side;
  }

  public String getAccountId() {
    return this.accountId;
  }

  public void setAccountId(String accountId) {
    this.accountId = accountId;
  }

  public String getBranchId() {
    return this.branchId;
  }

  public void setBranchId(String branchId) {
    this.branchId = branchId;
  }

  public BinaryCodec getApplExtend() {
    return this.applExtend;
  }

  public void setApplExtend(BinaryCodec applExtend) {
    this.applExtend = applExtend;
  }

  @Override
  public void encode(ByteBuf byteBuf) {
    byteBuf.writeInt(this.partitionNo);
    byteBuf.writeLong(this.reportIndex);
    writeFixedString(byteBuf, this.applId, 3);
    writeFixedString(byteBuf, this.reportingPbuid, 6);
    writeFixedString(byteBuf, this.submittingPbuid, 6);
    writeFixedString(byteBuf, this.securityId, 8);
    writeFixedString(byteBuf, this.securityIdsource, 4);
    byteBuf.writeShort(this.ownerType);
    writeFixedString(byteBuf, this.clearingFirm, 2);
    byteBuf.writeLong(this.transactTime);
    writeFixedString(byteBuf, this.userInfo, 8);
    writeFixedString(byteBuf, this.orderId, 16);
    writeFixedString(byteBuf, this.clOrdId, 10);
    writeFixedString(byteBuf, this.quoteMsgId, 10);
    writeFixedString(byteBuf, this.execId, 16);
    writeFixedString(byteBuf, this.execType, 1);
    writeFixedString(byteBuf, this.ordStatus, 1);
    byteBuf.writeLong(this.lastPx);
    byteBuf.writeLong(this.lastQty);
    byteBuf.writeLong(this.leavesQty);
    byteBuf.writeLong(this.cumQty);
    writeFixedString(byteBuf, this.side, 1);
    writeFixedString(byteBuf, this.accountId, 12);
    writeFixedString(byteBuf, this.branchId, 4);
    if (null != this.applExtend) {
      this.applExtend.encode(byteBuf);
    }
  }

  @Override
  public void decode(ByteBuf byteBuf) {
    this.partitionNo = byteBuf.readInt();
    this.reportIndex = byteBuf.readLong();
    this.applId = readFixedString(byteBuf, 3);
    this.reportingPbuid = readFixedString(byteBuf, 6);
    this.submittingPbuid = readFixedString(byteBuf, 6);
    this.securityId = readFixedString(byteBuf, 8);
    this.securityIdsource = readFixedString(byteBuf, 4);
    this.ownerType = byteBuf.readShort();
    this.clearingFirm = readFixedString(byteBuf, 2);
    this.transactTime = byteBuf.readLong();
    this.userInfo = readFixedString(byteBuf, 8);
    this.orderId = readFixedString(byteBuf, 16);
    this.clOrdId = readFixedString(byteBuf, 10);
    this.quoteMsgId = readFixedString(byteBuf, 10);
    this.execId = readFixedString(byteBuf, 16);
    this.execType = readFixedString(byteBuf, 1);
    this.ordStatus = readFixedString(byteBuf, 1);
    this.lastPx = byteBuf.readLong();
    this.lastQty = byteBuf.readLong();
    this.leavesQty = byteBuf.readLong();
    this.cumQty = byteBuf.readLong();
    this.side = readFixedString(byteBuf, 1);
    this.accountId = readFixedString(byteBuf, 12);
    this.branchId = readFixedString(byteBuf, 4);
    this.applExtend = ApplExtendMessageFactory.getInstance().create(this.applId);
    this.applExtend.decode(byteBuf);
  }

  @Override
  public int hashCode() {
    return Objects.hash(
        partitionNo,
        reportIndex,
        applId,
        reportingPbuid,
        submittingPbuid,
        securityId,
        securityIdsource,
        ownerType,
        clearingFirm,
        transactTime,
        userInfo,
        orderId,
        clOrdId,
        quoteMsgId,
        execId,
        execType,
        ordStatus,
        lastPx,
        lastQty,
        leavesQty,
        cumQty,
        side,
        accountId,
        branchId,
        applExtend);
  }

  @Override
  public boolean equals(Object obj) {
    if (this == obj) {
      return true;
    }
    if (null == obj || getClass() != obj.getClass()) {
      return false;
    }
    ExecutionReport orther_ = (ExecutionReport) obj;
    return Objects.equals(partitionNo, orther_.partitionNo)
        && Objects.equals(reportIndex, orther_.reportIndex)
        && Objects.equals(applId, orther_.applId)
        && Objects.equals(reportingPbuid, orther_.reportingPbuid)
        && Objects.equals(submittingPbuid, orther_.submittingPbuid)
        && Objects.equals(securityId, orther_.securityId)
        && Objects.equals(securityIdsource, orther_.securityIdsource)
        && Objects.equals(ownerType, orther_.ownerType)
        && Objects.equals(clearingFirm, orther_.clearingFirm)
        && Objects.equals(transactTime, orther_.transactTime)
        && Objects.equals(userInfo, orther_.userInfo)
        && Objects.equals(orderId, orther_.orderId)
        && Objects.equals(clOrdId, orther_.clOrdId)
        && Objects.equals(quoteMsgId, orther_.quoteMsgId)
        && Objects.equals(execId, orther_.execId)
        && Objects.equals(execType, orther_.execType)
        && Objects.equals(ordStatus, orther_.ordStatus)
        && Objects.equals(lastPx, orther_.lastPx)
        && Objects.equals(lastQty, orther_.lastQty)
        && Objects.equals(leavesQty, orther_.leavesQty)
        && Objects.equals(cumQty, orther_.cumQty)
        && Objects.equals(side, orther_.side)
        && Objects.equals(accountId, orther_.accountId)
        && Objects.equals(branchId, orther_.branchId)
        && Objects.equals(applExtend, orther_.applExtend);
  }

  @Override
  public String toString() {
    return ""ExecutionReport [""
        + ""partitionNo=""
        + this.partitionNo
        + "", reportIndex=""
        + this.reportIndex
        + "", applId=""
        + this.applId
        + "", reportingPbuid=""
        + this.reportingPbuid
        + "", submittingPbuid=""
        + this.submittingPbuid
        + "", securityId=""
        + this.securityId
        + "", securityIdsource=""
        + this.securityIdsource
        + "", ownerType=""
        + this.ownerType
        + "", clearingFirm=""
        + this.clearingFirm
        + "", transactTime=""
        + this.transactTime
        + "", userInfo=""
        + this.userInfo
        + "", orderId=""
        + this.orderId
        + "", clOrdId=""
        + this.clOrdId
        + "", quoteMsgId=""
        + this.quoteMsgId
        + "", execId=""
        + this.execId
        + "", execType=""
        + this.execType
        + "", ordStatus=""
        + this.ordStatus
        + "", lastPx=""
        + this.lastPx
        + "", lastQty=""
        + this.lastQty
        + "", leavesQty=""
        + this.leavesQty
        + "", cumQty=""
        + this.cumQty
        + "", side=""
        + this.side
        + "", accountId=""
        + this.accountId
        + "", branchId=""
        + this.branchId
        + "", applExtend=""
        + this.applExtend
        + ""]"";
  }

  public static enum ApplExtendMessageFactory {
    INSTANCE;
    private final Map<String, Supplier<BinaryCodec>> applExtendMap = new HashMap<>();

    static {
      getInstance().register(""010"", Extend200115::new);
      getInstance().register(""020"", Extend200215::new);
      getInstance().register(""030"", Extend200315::new);
      getInstance().register(""051"", Extend200515::new);
      getInstance().register(""052"", Extend200515::new);
      getInstance().register(""056"", Extend200515::new);
      getInstance().register(""057"", Extend200515::new);
      getInstance().register(""060"", Extend200615::new);
      getInstance().register(""061"", Extend200615::new);
      getInstance().register(""070"", Extend200715::new);
      getInstance().register(""630"", Extend206315::new);
      getInstance().register(""370"", Extend203715::new);
      getInstance().register(""410"", Extend204115::new);
      getInstance().register(""412"", Extend204115::new);
      getInstance().register(""413"", Extend204115::new);
      getInstance().register(""415"", Extend204115::new);
      getInstance().register(""416"", Extend204115::new);
      getInstance().register(""417"", Extend204130::new);
      getInstance().register(""470"", Extend204715::new);
    }

    public BinaryCodec create(String applId) {
      Supplier<BinaryCodec> supplier = applExtendMap.get(applId);
      if (null == supplier) {
        throw new IllegalArgumentException(""Unsupported ApplID:"" + applId);
      }
      return supplier.get();
    }

    public void register(String applId, Supplier<BinaryCodec> supplier) {
      applExtendMap.put(applId, supplier);
    }

    public boolean remove(String applId) {
      return null != applExtendMap.remove(applId);
    }

    public static ApplExtendMessageFactory getInstance() {
      return INSTANCE;
    }
  }
}
".

(* szse-bin/src/main/java/com/finproto/szse/bin/messages/Extend100101.java *)
Definition text_szse_Extend100101 : text :=
"// Code generated by fin-protoc. DO NOT EDIT.
package com.finproto.szse.bin.messages;

import com.finproto.codec.BinaryCodec;
import io.netty.buffer.ByteBuf;
import java.util.Objects;

public class Extend100101 implements BinaryCodec {
  private long stopPx;
  private long minQty;
  private short maxPriceLevels;
  private String timeInForce;
  private String cashMargin;

  public long getStopPx() {
    return this.stopPx;
  }

  public void setStopPx(long stopPx) {
    this.stopPx = stopPx;
  }

  public long getMinQty() {
    return this.minQty;
  }

  public void setMinQty(long minQty) {
    this.minQty = minQty;
  }

  public short getMaxPriceLevels() {
    return this.maxPriceLevels;
  }

  public void setMaxPriceLevels(short maxPriceLevels) {
    this.maxPriceLevels = maxPriceLevels;
  }

  public String getTimeInForce() {
    return this.timeInForce;
  }

  public void setTimeInForce(String timeInForce) {
    this.timeInForce = timeInForce;
  }

  public String getCashMargin() {
    return this.cashMargin;
  }

  public void setCashMargin(String cashMargin) {
    this.cashMargin = cashMargin;
  }

  @Override
  public void encode(ByteBuf byteBuf) {
    byteBuf.writeLong(this.stopPx);
    byteBuf.writeLong(this.minQty);
    byteBuf.writeShort(this.maxPriceLevels);
    writeFixedString(byteBuf, this.timeInForce, 1);
    writeFixedString(byteBuf, this.cashMargin, 1);
  }

  @Override
  public void decode(ByteBuf byteBuf) {
    this.stopPx = byteBuf.readLong();
    this.minQty = byteBuf.readLong();
    this.maxPriceLevels = byteBuf.readShort();
    this.timeInForce = readFixedString(byteBuf, 1);
    this.cashMargin = readFixedString(byteBuf, 1);
  }

  @Override
  public int hashCode() {
    return Objects.hash(stopPx, minQty, maxPriceLevels, timeInForce, cashMargin);
  }

  @Override
  public boolean equals(Object obj) {
    if (this == obj) {
      return true;
    }
    if (null == obj || getClass() != obj.getClass()) {
      return false;
    }
    Extend100101 orther_ = (Extend100101) obj;
    return Objects.equals(stopPx, orther_.stopPx)
        && Objects.equals(minQty, orther_.minQty)
        && Objects.equals(maxPriceLevels, orther_.maxPriceLevels)
        && Objects.equals(timeInForce, orther_.timeInForce)
        && Objects.equals(cashMargin, orther_.cashMargin);
  }

  @Override
  public String toString() {
    return ""Extend100101 [""
        + ""stopPx=""
        + this.stopPx
        + "", minQty=""
        + this.minQty
        + "", maxPriceLevels=""
        + this.maxPriceLevels
        + "", timeInForce=""
        + this.timeInForce
        + "", cashMargin=""
        + this.cashMargin
        + ""]"";
  }
}
".

(* szse-bin/src/main/java/com/finproto/szse/bin/messages/Extend100201.java *)
Definition text_szse_Extend100201 : text :=
"// Code generated by fin-protoc. DO NOT EDIT.
package com.finproto.szse.bin.messages;

import com.finproto.codec.BinaryCodec;
import io.netty.buffer.ByteBuf;
import java.util.Objects;

public class Extend100201 implements BinaryCodec {
  private long stopPx;
  private long minQty;
  private short maxPriceLevels;
  private String timeInForce;

  public long getStopPx() {
    return this.stopPx;
  }

  public void setStopPx(long stopPx) {
    this.stopPx = stopPx;
  }

  public long getMinQty() {
    return this.minQty;
  }

  public void setMinQty(long minQty) {
    this.minQty = minQty;
  }

  public short getMaxPriceLevels() {
    return this.maxPriceLevels;
  }

  public void setMaxPriceLevels(short maxPriceLevels) {
    this.maxPriceLevels = maxPriceLevels;
  }

  public String getTimeInForce() {
    return this.timeInForce;
  }

  public void setTimeInForce(String timeInForce) {
    this.timeInForce = timeInForce;
  }

  @Override
  public void encode(ByteBuf byteBuf) {
    byteBuf.writeLong(this.stopPx);
    byteBuf.writeLong(this.minQty);
    byteBuf.writeShort(this.maxPriceLevels);
    writeFixedString(byteBuf, this.timeInForce, 1);
  }

  @Override
  public void decode(ByteBuf byteBuf) {
    this.stopPx = byteBuf.readLong();
    this.minQty = byteBuf.readLong();
    this.maxPriceLevels = byteBuf.readShort();
    this.timeInForce = readFixedString(byteBuf, 1);
  }

  @Override
  public int hashCode() {
    return Objects.hash(stopPx, minQty, maxPriceLevels, timeInForce);
  }

  @Override
  public boolean equals(Object obj) {
    if (this == obj) {
      return true;
    }
    if (null == obj || getClass() != obj.getClass()) {
      return false;
    }
    Extend100201 orther_ = (Extend100201) obj;
    return Objects.equals(stopPx, orther_.stopPx)
        && Objects.equals(minQty, orther_.minQty)
        && Objects.equals(maxPriceLevels, orther_.maxPriceLevels)
        && Objects.equals(timeInForce, orther_.timeInForce);
  }

  @Override
  public String toString() {
    return ""Extend100201 [""
        + ""stopPx=""
        + this.stopPx
        + "", minQty=""
        + this.minQty
        + "", maxPriceLevels=""
        + this.maxPriceLevels
        + "", timeInForce=""
        + this.timeInForce
        + ""]"";
  }
}
".

(* szse-bin/src/main/java/com/finproto/szse/bin/messages/Extend100301.java *)
Definition text_szse_Extend100301 : text :=
"// Code generated by fin-protoc. DO NOT EDIT.
package com.finproto.szse.bin.messages;

import com.finproto.codec.BinaryCodec;
import io.netty.buffer.ByteBuf;
import java.util.Objects;

public class Extend100301 implements BinaryCodec {
  private long stopPx;
  private long minQty;
  private short maxPriceLevels;
  private String timeInForce;

  public long getStopPx() {
    return this.stopPx;
  }

  public void setStopPx(long stopPx) {
    this.stopPx = stopPx;
  }

  public long getMinQty() {
    return this.minQty;
  }

  public void setMinQty(long minQty) {
    this.minQty = minQty;
  }

  public short getMaxPriceLevels() {
    return this.maxPriceLevels;
  }

  public void setMaxPriceLevels(short maxPriceLevels) {
    this.maxPriceLevels = maxPriceLevels;
  }

  public String getTimeInForce() {
    return this.timeInForce;
  }

  public void setTimeInForce(String timeInForce) {
    this.timeInForce = timeInForce;
  }

  @Override
  public void encode(ByteBuf byteBuf) {
    byteBuf.writeLong(this.stopPx);
    byteBuf.writeLong(this.minQty);
    byteBuf.writeShort(this.maxPriceLevels);
    writeFixedString(byteBuf, this.timeInForce, 1);
  }

  @Override
  public void decode(ByteBuf byteBuf) {
    this.stopPx = byteBuf.readLong();
    this.minQty = byteBuf.readLong();
    this.maxPriceLevels = byteBuf.readShort();
    this.timeInForce = readFixedString(byteBuf, 1);
  }

  @Override
  public int hashCode() {
    return Objects.hash(stopPx, minQty, maxPriceLevels, timeInForce);
  }

  @Override
  public boolean equals(Object obj) {
    if (this == obj) {
      return true;
    }
    if (null == obj || getClass() != obj.getClass()) {
      return false;
    }
    Extend100301 orther_ = (Extend100301) obj;
    return Objects.equals(stopPx, orther_.stopPx)
        && Objects.equals(minQty, orther_.minQty)
        && Objects.equals(maxPriceLevels, orther_.maxPriceLevels)
        && Objects.equals(timeInForce, orther_.timeInForce);
  }

  @Override
  public String toString() {
    return ""Extend100301 [""
        + ""stopPx=""
        + this.stopPx
        + "", minQty=""
        + this.minQty
        + "", maxPriceLevels=""
        + this.maxPriceLevels
        + "", timeInForce=""
        + this.timeInForce
        + ""]"";
  }
}
".

(* szse-bin/src/main/java/com/finproto/szse/bin/messages/Extend100501.java *)
Definition text_szse_Extend100501 : text :=
"// Code generated by fin-protoc. DO NOT EDIT.
package com.finproto.szse.bin.messages;

import com.finproto.codec.BinaryCodec;
import io.netty.buffer.ByteBuf;
import java.util.Objects;

public class Extend100501 implements BinaryCodec {
  private String confirmId;
  private String cashMargin;

  public String getConfirmId() {
    return this.confirmId;
  }

  public void setConfirmId(String confirmId) {
    this.confirmId = confirmId;
  }

  public String getCashMargin() {
    return this.cashMargin;
  }

  public void setCashMargin(String cashMargin) {
    this.cashMargin = cashMargin;
  }

  @Override
  public void encode(ByteBuf byteBuf) {
    writeFixedString(byteBuf, this.confirmId, 8);
    writeFixedString(byteBuf, this.cashMargin, 1);
  }

  @Override
  public void decode(ByteBuf byteBuf) {
    this.confirmId = readFixedString(byteBuf, 8);
    this.cashMargin = readFixedString(byteBuf, 1);
  }

  @Override
  public int hashCode() {
    return Objects.hash(confirmId, cashMargin);
  }

  @Override
  public boolean equals(Object obj) {
    if (this == obj) {
      return true;
    }
    if (null == obj || getClass() != obj.getClass()) {
      return false;
    }
    Extend100501 orther_ = (Extend100501) obj;
    return Objects.equals(confirmId, orther_.confirmId)
        && Objects.equals(cashMargin, orther_.cashMargin);
  }

  @Override
  public String toString() {
    return ""Extend100501 [""
        + ""confirmId=""
        + this.confirmId
        + "", cashMargin=""
        + this.cashMargin
        + ""]"";
  }
}
".

(* szse-bin/src/main/java/com/finproto/szse/bin/messages/Extend100601.java *)
Definition text_szse_Extend100601 : text :=
"// Code generated by fin-protoc. DO NOT EDIT.
package com.finproto.szse.bin.messages;

import com.finproto.codec.BinaryCodec;
import io.netty.buffer.ByteBuf;
import java.util.Objects;

public class Extend100601 implements BinaryCodec {
  private String cashMargin;

  public String getCashMargin() {
    return this.cashMargin;
  }

  public void setCashMargin(String cashMargin) {
    this.cashMargin = cashMargin;
  }

  @Override
  public void encode(ByteBuf byteBuf) {
    writeFixedString(byteBuf, this.cashMargin, 1);
  }

  @Override
  public void decode(ByteBuf byteBuf) {
    this.cashMargin = readFixedString(byteBuf, 1);
  }

  @Override
  public int hashCode() {
    return Objects.hash(cashMargin);
  }

  @Override
  public boolean equals(Object obj) {
    if (this == obj) {
      return true;
    }
    if (null == obj || getClass() != obj.getClass()) {
      return false;
    }
    Extend100601 orther_ = (Extend100601) obj;
    return Objects.equals(cashMargin, orther_.cashMargin);
  }

  @Override
  public String toString() {
    return ""Extend100601 ["" + ""cashMargin="" + this.cashMargin + ""]"";
  }
}
".

(* szse-bin/src/main/java/com/finproto/szse/bin/messages/Extend100701.java *)
Definition text_szse_Extend100701 : text :=
"// Code generated by fin-protoc. DO NOT EDIT.
package com.finproto.szse.bin.messages;

import com.finproto.codec.BinaryCodec;
import io.netty.buffer.ByteBuf;
import java.util.Objects;

public class Extend100701 implements BinaryCodec {
  private short expirationDays;
  private byte expirationType;
  private String shareProperty;

  public short getExpirationDays() {
    return this.expirationDays;
  }

  public void setExpirationDays(short expirationDays) {
    this.expirationDays = expirationDays;
  }

  public byte getExpirationType() {
    return this.expirationType;
  }

  public void setExpirationType(byte expirationType) {
    this.expirationType = expirationType;
  }

  public String getShareProperty() {
    return this.shareProperty;
  }

  public void setShareProperty(String shareProperty) {
    this.shareProperty = shareProperty;
  }

  @Override
  public void encode(ByteBuf byteBuf) {
    byteBuf.writeShort(this.expirationDays);
    byteBuf.writeByte(this.expirationType);
    writeFixedString(byteBuf, this.shareProperty, 2);
  }

  @Override
  public void decode(ByteBuf byteBuf) {
    this.expirationDays = byteBuf.readShort();
    this.expirationType = byteBuf.readByte();
    this.shareProperty = readFixedString(byteBuf, 2);
  }

  @Override
  public int hashCode() {
    return Objects.hash(expirationDays, expirationType, shareProperty);
  }

  @Override
  public boolean equals(Object obj) {
    if (this == obj) {
      return true;
    }
    if (null == obj || getClass() != obj.getClass()) {
      return false;
    }
    Extend100701 orther_ = (Extend100701) obj;
    return Objects.equals(expirationDays, orther_.expirationDays)
        && Objects.equals(expirationType, orther_.expirationType)
        && Objects.equals(shareProperty, orther_.shareProperty);
  }

  @Override
  public String toString() {
    return ""Extend100701 [""
        + ""expirationDays=""
        + this.expirationDays
        + "", expirationType=""
        + this.expirationType
        + "", shareProperty=""
        + this.shareProperty
        + ""]"";
  }
}
".

(* szse-bin/src/main/java/com/finproto/szse/bin/messages/Extend101401.java *)
Definition text_szse_Extend101401 : text :=
"// Code generated by fin-protoc. DO NOT EDIT.
package com.finproto.szse.bin.messages;

import com.finproto.codec.BinaryCodec;
import io.netty.buffer.ByteBuf;
import java.util.Objects;

public class Extend101401 implements BinaryCodec {
  private long stopPx;
  private long minQty;
  private short maxPriceLevels;
  private String timeInForce;
  private String positionEffect;
  private byte coveredOrUncovered;
  private String contractAccountCode;
  private String secondaryOrderId;

  public long getStopPx() {
    return this.stopPx;
  }

  public void setStopPx(long stopPx) {
    this.stopPx = stopPx;
  }

  public long getMinQty() {
    return this.minQty;
  }

  public void setMinQty(long minQty) {
    this.minQty = minQty;
  }

  public short getMaxPriceLevels() {
    return this.maxPriceLevels;
  }

  public void setMaxPriceLevels(short maxPriceLevels) {
    this.maxPriceLevels = maxPriceLevels;
  }

  public String getTimeInForce() {
    return this.timeInForce;
  }

  public void setTimeInForce(String timeInForce) {
    this.timeInForce = timeInForce;
  }

  public String getPositionEffect() {
    return this.positionEffect;
  }

  public void setPositionEffect(String positionEffect) {
    this.positionEffect = positionEffect;
  }

  public byte getCoveredOrUncovered() {
    return this.coveredOrUncovered;
  }

  public void setCoveredOrUncovered(byte coveredOrUncovered) {
    this.coveredOrUncovered = coveredOrUncovered;
  }

  public String getContractAccountCode() {
    return this.contractAccountCode;
  }

  public void setContractAccountCode(String contractAccountCode) {
    this.contractAccountCode = contractAccountCode;
  }

  public String getSecondaryOrderId() {
    return this.secondaryOrderId;
  }

  public void setSecondaryOrderId(String secondaryOrderId) {
    this.secondaryOrderId = secondaryOrderId;
  }

  @Override
  public void encode(ByteBuf byteBuf) {
    byteBuf.writeLong(this.stopPx);
    byteBuf.writeLong(this.minQty);
    byteBuf.writeShort(this.maxPriceLevels);
    writeFixedString(byteBuf, this.timeInForce, 1);
    writeFixedString(byteBuf, this.positionEffect, 1);
    byteBuf.writeByte(this.coveredOrUncovered);
    writeFixedString(byteBuf, this.contractAccountCode, 6);
    writeFixedString(byteBuf, this.secondaryOrderId, 16);
  }

  @Override
  public void decode(ByteBuf byteBuf) {
    this.stopPx = byteBuf.readLong();
    this.minQty = byteBuf.readLong();
    this.maxPriceLevels = byteBuf.readShort();
    this.timeInForce = readFixedString(byteBuf, 1);
    this.positionEffect = readFixedString(byteBuf, 1);
    this.coveredOrUncovered = byteBuf.readByte();
    this.contractAccountCode = readFixedString(byteBuf, 6);
    this.secondaryOrderId = readFixedString(byteBuf, 16);
  }

  @Override
  public int hashCode() {
    return Objects.hash(
        stopPx,
        minQty,
        maxPriceLevels,
        timeInForce,
        positionEffect,
        coveredOrUncovered,
        contractAccountCode,
        secondaryOrderId);
  }

  @Override
  public boolean equals(Object obj) {
    if (this == obj) {
      return true;
    }
    if (null == obj || getClass() != obj.getClass()) {
      return false;
    }
    Extend101401 orther_ = (Extend101401) obj;
    return Objects.equals(stopPx, orther_.stopPx)
        && Objects.equals(minQty, orther_.minQty)
        && Objects.equals(maxPriceLevels, orther_.maxPriceLevels)
        && Objects.equals(timeInForce, orther_.timeInForce)
        && Objects.equals(positionEffect, orther_.positionEffect)
        && Objects.equals(coveredOrUncovered, orther_.coveredOrUncovered)
        && Objects.equals(contractAccountCode, orther_.contractAccountCode)
        && Objects.equals(secondaryOrderId, orther_.secondaryOrderId);
  }

  @Override
  public String toString() {
    return ""Extend101401 [""
        + ""stopPx=""
        + this.stopPx
        + "", minQty=""
        + this.minQty
        + "", maxPriceLevels=""
        + this.maxPriceLevels
        + "", timeInForce=""
        + this.timeInForce
        + "", positionEffect=""
        + this.positionEffect
        + "", coveredOrUncovered=""
        + this.coveredOrUncovered
        + "", contractAccountCode=""
        + this.contractAccountCode
        + "", secondaryOrderId=""
        + this.secondaryOrderId
        + ""]"";
  }
}
".

(* szse-bin/src/main/java/com/finproto/szse/bin/messages/Extend101501.java *)
Definition text_szse_Extend101501 : text :=
"// Code generated by fin-protoc. DO NOT EDIT.
package com.finproto.szse.bin.messages;

import com.finproto.codec.BinaryCodec;
import io.netty.buffer.ByteBuf;
import java.util.Objects;

public class Extend101501 implements BinaryCodec {
  private String shareProperty;

  public String getShareProperty() {
    return this.shareProperty;
  }

  public void setShareProperty(String shareProperty) {
    this.shareProperty = shareProperty;
  }

  @Override
  public void encode(ByteBuf byteBuf) {
    writeFixedString(byteBuf, this.shareProperty, 2);
  }

  @Override
  public void decode(ByteBuf byteBuf) {
    this.shareProperty = readFixedString(byteBuf, 2);
  }

  @Override
  public int hashCode() {
    return Objects.hash(shareProperty);
  }

  @Override
  public boolean equals(Object obj) {
    if (this == obj) {
      return true;
    }
    if (null == obj || getClass() != obj.getClass()) {
      return false;
    }
    Extend101501 orther_ = (Extend101501) obj;
    return Objects.equals(shareProperty, orther_.shareProperty);
  }

  @Override
  public String toString() {
    return ""Extend101501 ["" + ""shareProperty="" + this.shareProperty + ""]"";
  }
}
".

(* szse-bin/src/main/java/com/finproto/szse/bin/messages/Extend101601.java *)
Definition text_szse_Extend101601 : text :=
"// Code generated by fin-protoc. DO NOT EDIT.
package com.finproto.szse.bin.messages;

import com.finproto.codec.BinaryCodec;
import io.netty.buffer.ByteBuf;
import java.util.Objects;

public class Extend101601 implements BinaryCodec {
  private String contractAccountCode;

  public String getContractAccountCode() {
    return this.contractAccountCode;
  }

  public void setContractAccountCode(String contractAccountCode) {
    this.contractAccountCode = contractAccountCode;
  }

  @Override
  public void encode(ByteBuf byteBuf) {
    writeFixedString(byteBuf, this.contractAccountCode, 6);
  }

  @Override
  public void decode(ByteBuf byteBuf) {
    this.contractAccountCode = readFixedString(byteBuf, 6);
  }

  @Override
  public int hashCode() {
    return Objects.hash(contractAccountCode);
  }

  @Override
  public boolean equals(Object obj) {
    if (this == obj) {
      return true;
    }
    if (null == obj || getClass() != obj.getClass()) {
      return false;
    }
    Extend101601 orther_ = (Extend101601) obj;
    return Objects.equals(contractAccountCode, orther_.contractAccountCode);
  }

  @Override
  public String toString() {
    return ""Extend101601 ["" + ""contractAccountCode="" + this.contractAccountCode + ""]"";
  }
}
".

(* szse-bin/src/main/java/com/finproto/szse/bin/messages/Extend101701.java *)
Definition text_szse_Extend101701 : text :=
"// Code generated by fin-protoc. DO NOT EDIT.
package com.finproto.szse.bin.messages;

import com.finproto.codec.BinaryCodec;
import io.netty.buffer.ByteBuf;
import java.util.Objects;

public class Extend101701 implements BinaryCodec {
  private long cashOrderQty;

  public long getCashOrderQty() {
    return this.cashOrderQty;
  }

  public void setCashOrderQty(long cashOrderQty) {
    this.cashOrderQty = cashOrderQty;
  }

  @Override
  public void encode(ByteBuf byteBuf) {
    byteBuf.writeLong(this.cashOrderQty);
  }

  @Override
  public void decode(ByteBuf byteBuf) {
    this.cashOrderQty = byteBuf.readLong();
  }

  @Override
  public int hashCode() {
    return Objects.hash(cashOrderQty);
  }

  @Override
  public boolean equals(Object obj) {
    if (this == obj) {
      return true;
    }
    if (null == obj || getClass() != obj.getClass()) {
      return false;
    }
    Extend101701 orther_ = (Extend101701) obj;
    return Objects.equals(cashOrderQty, orther_.cashOrderQty);
  }

  @Override
  public String toString() {
    return ""Extend101701 ["" + ""cashOrderQty="" + this.cashOrderQty + ""]"";
  }
}
".

(* szse-bin/src/main/java/com/finproto/szse/bin/messages/Extend101801.java *)
Definition text_szse_Extend101801 : text :=
"// Code generated by fin-protoc. DO NOT EDIT.
package com.finproto.szse.bin.messages;

import com.finproto.codec.BinaryCodec;
import io.netty.buffer.ByteBuf;
import java.util.Objects;

public class Extend101801 implements BinaryCodec {
  private String tenderer;

  public String getTenderer() {
    return this.tenderer;
  }

  public void setTenderer(String tenderer) {
    this.tenderer = tenderer;
  }

  @Override
  public void encode(ByteBuf byteBuf) {
    writeFixedString(byteBuf, this.tenderer, 6);
  }

  @Override
  public void decode(ByteBuf byteBuf) {
    this.tenderer = readFixedString(byteBuf, 6);
  }

  @Override
  public int hashCode() {
    return Objects.hash(tenderer);
  }

  @Override
  public boolean equals(Object obj) {
    if (this == obj) {
      return true;
    }
    if (null == obj || getClass() != obj.getClass()) {
      return false;
    }
    Extend101801 orther_ = (Extend101801) obj;
    return Objects.equals(tenderer, orther_.tenderer);
  }

  @Override
  public String toString() {
    return ""Extend101801 ["" + ""tenderer="" + this.tenderer + ""]"";
  }
}
".

(* szse-bin/src/main/java/com/finproto/szse/bin/messages/Extend102701.java *)
Definition text_szse_Extend102701 : text :=
"// Code generated by fin-protoc. DO NOT EDIT.
package com.finproto.szse.bin.messages;

import com.finproto.codec.BinaryCodec;
import io.netty.buffer.ByteBuf;
import java.util.Objects;

public class Extend102701 implements BinaryCodec {
  private String disposalPbu;
  private String disposalAccountId;

  public String getDisposalPbu() {
    return this.disposalPbu;
  }

  public void setDisposalPbu(String disposalPbu) {
    this.disposalPbu = disposalPbu;
  }

  public String getDisposalAccountId() {
    return this.disposalAccountId;
  }

  public void setDisposalAccountId(String disposalAccountId) {
    this.disposalAccountId = disposalAccountId;
  }

  @Override
  public void encode(ByteBuf byteBuf) {
    writeFixedString(byteBuf, this.disposalPbu, 6);
    writeFixedString(byteBuf, this.disposalAccountId, 12);
  }

  @Override
  public void decode(ByteBuf byteBuf) {
    this.disposalPbu = readFixedString(byteBuf, 6);
    this.disposalAccountId = readFixedString(byteBuf, 12);
  }

  @Override
  public int hashCode() {
    return Objects.hash(disposalPbu, disposalAccountId);
  }

  @Override
  public boolean equals(Object obj) {
    if (this == obj) {
      return true;
    }
    if (null == obj || getClass() != obj.getClass()) {
      return false;
    }
    Extend102701 orther_ = (Extend102701) obj;
    return Objects.equals(disposalPbu, orther_.disposalPbu)
        && Objects.equals(disposalAccountId, orther_.disposalAccountId);
  }

  @Override
  public String toString() {
    return ""Extend102701 [""
        + ""disposalPbu=""
        + this.disposalPbu
        + "", disposalAccountId=""
        + this.disposalAccountId
        + ""]"";
  }
}
".

(* szse-bin/src/main/java/com/finproto/szse/bin/messages/Extend102801.java *)
Definition text_szse_Extend102801 : text :=
"// Code generated by fin-protoc. DO NOT EDIT.
package com.finproto.szse.bin.messages;

import com.finproto.codec.BinaryCodec;
import io.netty.buffer.ByteBuf;
import java.util.Objects;

public class Extend102801 implements BinaryCodec {
  private String lenderPbu;
  private String lenderAccountId;

  public String getLenderPbu() {
    return this.lenderPbu;
  }

  public void setLenderPbu(String lenderPbu) {
    this.lenderPbu = lenderPbu;
  }

  public String getLenderAccountId() {
    return this.lenderAccountId;
  }

  public void setLenderAccountId(String lenderAccountId) {
    this.lenderAccountId = lenderAccountId;
  }

  @Override
  public void encode(ByteBuf byteBuf) {
    writeFixedString(byteBuf, this.lenderPbu, 6);
    writeFixedString(byteBuf, this.lenderAccountId, 12);
  }

  @Override
  public void decode(ByteBuf byteBuf) {
    this.lenderPbu = readFixedString(byteBuf, 6);
    this.lenderAccountId = readFixedString(byteBuf, 12);
  }

  @Override
  public int hashCode() {
    return Objects.hash(lenderPbu, lenderAccountId);
  }

  @Override
  public boolean equals(Object obj) {
    if (this == obj) {
      return true;
    }
    if (null == obj || getClass() != obj.getClass()) {
      return false;
    }
    Extend102801 orther_ = (Extend102801) obj;
    return Objects.equals(lenderPbu, orther_.lenderPbu)
        && Objects.equals(lenderAccountId, orther_.lenderAccountId);
  }

  @Override
  public String toString() {
    return ""Extend102801 [""
        + ""lenderPbu=""
        + this.lenderPbu
        + "", lenderAccountId=""
        + this.lenderAccountId
        + ""]"";
  }
}
".

(* szse-bin/src/main/java/com/finproto/szse/bin/messages/Extend102901.java *)
Definition text_szse_Extend102901 : text :=
"// Code generated by fin-protoc. DO NOT EDIT.
package com.finproto.szse.bin.messages;

import com.finproto.codec.BinaryCodec;
import io.netty.buffer.ByteBuf;
import java.util.Objects;

public class Extend102901 implements BinaryCodec {
  private String deductionPbu;
  private String deductionAccountId;

  public String getDeductionPbu() {
    return this.deductionPbu;
  }

  public void setDeductionPbu(String deductionPbu) {
    this.deductionPbu = deductionPbu;
  }

  public String getDeductionAccountId() {
    return this.deductionAccountId;
  }

  public void setDeductionAccountId(String deductionAccountId) {
    this.deductionAccountId = deductionAccountId;
  }

  @Override
  public void encode(ByteBuf byteBuf) {
    writeFixedString(byteBuf, this.deductionPbu, 6);
    writeFixedString(byteBuf, this.deductionAccountId, 12);
  }

  @Override
  public void decode(ByteBuf byteBuf) {
    this.deductionPbu = readFixedString(byteBuf, 6);
    this.deductionAccountId = readFixedString(byteBuf, 12);
  }

  @Override
  public int hashCode() {
    return Objects.hash(deductionPbu, deductionAccountId);
  }

  @Override
  public boolean equals(Object obj) {
    if (this == obj) {
      return true;
    }
    if (null == obj || getClass() != obj.getClass()) {
      return false;
    }
    Extend102901 orther_ = (Extend102901) obj;
    return Objects.equals(deductionPbu, orther_.deductionPbu)
        && Objects.equals(deductionAccountId, orther_.deductionAccountId);
  }

  @Override
  public String toString() {
    return ""Extend102901 [""
        + ""deductionPbu=""
        + this.deductionPbu
        + "", deductionAccountId=""
        + this.deductionAccountId
        + ""]"";
  }
}
".

(* szse-bin/src/main/java/com/finproto/szse/bin/messages/Extend103501.java *)
Definition text_szse_Extend103501 : text :=
"// Code generated by fin-protoc. DO NOT EDIT.
package com.finproto.szse.bin.messages;

import com.finproto.codec.BinaryCodec;
import io.netty.buffer.ByteBuf;
import java.util.Objects;

public class Extend103501 implements BinaryCodec {
  private String contractAccountCode;

  public String getContractAccountCode() {
    return this.contractAccountCode;
  }

  public void setContractAccountCode(String contractAccountCode) {
    this.contractAccountCode = contractAccountCode;
  }

  @Override
  public void encode(ByteBuf byteBuf) {
    writeFixedString(byteBuf, this.contractAccountCode, 6);
  }

  @Override
  public void decode(ByteBuf byteBuf) {
    this.contractAccountCode = readFixedString(byteBuf, 6);
  }

  @Override
  public int hashCode() {
    return Objects.hash(contractAccountCode);
  }

  @Override
  public boolean equals(Object obj) {
    if (this == obj) {
      return true;
    }
    if (null == obj || getClass() != obj.getClass()) {
      return false;
    }
    Extend103501 orther_ = (Extend103501) obj;
    return Objects.equals(contractAccountCode, orther_.contractAccountCode);
  }

  @Override
  public String toString() {
    return ""Extend103501 ["" + ""contractAccountCode="" + this.contractAccountCode + ""]"";
  }
}
".

(* szse-bin/src/main/java/com/finproto/szse/bin/messages/Extend103701.java *)
Definition text_szse_Extend103701 : text :=
"// Code generated by fin-protoc. DO NOT EDIT.
package com.finproto.szse.bin.messages;

import com.finproto.codec.BinaryCodec;
import io.netty.buffer.ByteBuf;
import java.util.Objects;

public class Extend103701 implements BinaryCodec {
  private String cashMargin;

  public String getCashMargin() {
    return this.cashMargin;
  }

  public void setCashMargin(String cashMargin) {
    this.cashMargin = cashMargin;
  }

  @Override
  public void encode(ByteBuf byteBuf) {
    writeFixedString(byteBuf, this.cashMargin, 1);
  }

  @Override
  public void decode(ByteBuf byteBuf) {
    this.cashMargin = readFixedString(byteBuf, 1);
  }

  @Override
  public int hashCode() {
    return Objects.hash(cashMargin);
  }

  @Override
  public boolean equals(Object obj) {
    if (this == obj) {
      return true;
    }
    if (null == obj || getClass() != obj.getClass()) {
      return false;
    }
    Extend103701 orther_ = (Extend103701) obj;
    return Objects.equals(cashMargin, orther_.cashMargin);
  }

  @Override
  public String toString() {
    return ""Extend103701 ["" + ""cashMargin="" + this.cashMargin + ""]"";
  }
}
".

(* szse-bin/src/main/java/com/finproto/szse/bin/messages/Extend104101.java *)
Definition text_szse_Extend104101 : text :=
"// Code generated by fin-protoc. DO NOT EDIT.
package com.finproto.szse.bin.messages;

import com.finproto.codec.BinaryCodec;
import io.netty.buffer.ByteBuf;
import java.util.Objects;

public class Extend104101 implements BinaryCodec {
  private long stopPx;
  private long minQty;
  private short maxPriceLevels;
  private String timeInForce;
  private String cashMargin;

  public long getStopPx() {
    return this.stopPx;
  }

  public void setStopPx(long stopPx) {
    this.stopPx = stopPx;
  }

  public long getMinQty() {
    return this.minQty;
  }

  public void setMinQty(long minQty) {
    this.minQty = minQty;
  }

  public short getMaxPriceLevels() {
    return this.maxPriceLevels;
  }

  public void setMaxPriceLevels(short maxPriceLevels) {
    this.maxPriceLevels = maxPriceLevels;
  }

  public String getTimeInForce() {
    return this.timeInForce;
  }

  public void setTimeInForce(String timeInForce) {
    this.timeInForce = timeInForce;
  }

  public String getCashMargin() {
    return this.cashMargin;
  }

  public void setCashMargin(String cashMargin) {
    this.cashMargin = cashMargin;
  }

  @Override
  public void encode(ByteBuf byteBuf) {
    byteBuf.writeLong(this.stopPx);
    byteBuf.writeLong(this.minQty);
    byteBuf.writeShort(this.maxPriceLevels);
    writeFixedString(byteBuf, this.timeInForce, 1);
    writeFixedString(byteBuf, this.cashMargin, 1);
  }

  @Override
  public void decode(ByteBuf byteBuf) {
    this.stopPx = byteBuf.readLong();
    this.minQty = byteBuf.readLong();
    this.maxPriceLevels = byteBuf.readShort();
    this.timeInForce = readFixedString(byteBuf, 1);
    this.cashMargin = readFixedString(byteBuf, 1);
  }

  @Override
  public int hashCode() {
    return Objects.hash(stopPx, minQty, maxPriceLevels, timeInForce, cashMargin);
  }

  @Override
  public boolean equals(Object obj) {
    if (this == obj) {
      return true;
    }
    if (null == obj || getClass() != obj.getClass()) {
      return false;
    }
    Extend104101 orther_ = (Extend104101) obj;
    return Objects.equals(stopPx, orther_.stopPx)
        && Objects.equals(minQty, orther_.minQty)
        && Objects.equals(maxPriceLevels, orther_.maxPriceLevels)
        && Objects.equals(timeInForce, orther_.timeInForce)
        && Objects.equals(cashMargin, orther_.cashMargin);
  }

  @Override
  public String toString() {
    return ""Extend104101 [""
        + ""stopPx=""
        + this.stopPx
        + "", minQty=""
        + this.minQty
        + "", maxPriceLevels=""
        + this.maxPriceLevels
        + "", timeInForce=""
        + this.timeInForce
        + "", cashMargin=""
        + this.cashMargin
        + ""]"";
  }
}
".

(* szse-bin/src/main/java/com/finproto/szse/bin/messages/Extend104128.java *)
Definition text_szse_Extend104128 : text :=
"// Code generated by fin-protoc. DO NOT EDIT.
package com.finproto.szse.bin.messages;

import com.finproto.codec.BinaryCodec;
import io.netty.buffer.ByteBuf;
import java.util.Objects;

public class Extend104128 implements BinaryCodec {
  private String memberId;
  private String investorType;
  private String investorId;
  private String investorName;
  private String traderCode;
  private String secondaryOrderId;
  private short bidTransType;
  private short bidExecInstType;
  private long lowLimitPrice;
  private long highLimitPrice;
  private long minQty;
  private int tradeDate;
  private short settlType;
  private byte settlPeriod;
  private byte preTradeAnonymity;
  private String cashMargin;
  private String memo;

  public String getMemberId() {
    return this.memberId;
  }

  public void setMemberId(String memberId) {
    this.memberId = memberId;
  }

  public String getInvestorType() {
    return this.investorType;
  }

  public void setInvestorType(String investorType) {
    this.investorType = investorType;
  }

  public String getInvestorId() {
    return this.investorId;
  }

  public void setInvestorId(String investorId) {
    this.investorId = investorId;
  }

  public String getInvestorName() {
    return this.investorName;
  }

  public void setInvestorName(String investorName) {
    this.investorName = investorName;
  }

  public String getTraderCode() {
    return this.traderCode;
  }

  public void setTraderCode(String traderCode) {
    this.traderCode = traderCode;
  }

  public String getSecondaryOrderId() {
    return this.secondaryOrderId;
  }

  public void setSecondaryOrderId(String secondaryOrderId) {
    this.secondaryOrderId = secondaryOrderId;
  }

  public short getBidTransType() {
    return this.bidTransType;
  }

  public void setBidTransType(short bidTransType) {
    this.bidTransType = bidTransType;
  }

  public short getBidExecInstType() {
    return this.bidExecInstType;
  }

  public void setBidExecInstType(short bidExecInstType) {
    this.bidExecInstType = bidExecInstType;
  }

  public long getLowLimitPrice() {
    return this.lowLimitPrice;
  }

  public void setLowLimitPrice(long lowLimitPrice) {
    this.lowLimitPrice = lowLimitPrice;
  }

  public long getHighLimitPrice() {
    return this.highLimitPrice;
  }

  public void setHighLimitPrice(long highLimitPrice) {
    this.highLimitPrice = highLimitPrice;
  }

  public long getMinQty() {
    return this.minQty;
  }

  public void setMinQty(long minQty) {
    this.minQty = minQty;
  }

  public int getTradeDate() {
    return this.tradeDate;
  }

  public void setTradeDate(int tradeDate) {
    this.tradeDate = tradeDate;
  }

  public short getSettlType() {
    return this.settlType;
  }

  public void setSettlType(short settlType) {
    this.settlType = settlType;
  }

  public byte getSettlPeriod() {
    return this.settlPeriod;
  }

  public void setSettlPeriod(byte settlPeriod) {
    this.settlPeriod = settlPeriod;
  }

  public byte getPreTradeAnonymity() {
    return this.preTradeAnonymity;
  }

  public void setPreTradeAnonymity(byte preTradeAnonymity) {
    this.preTradeAnonymity = preTradeAnonymity;
  }

  public String getCashMargin() {
    return this.cashMargin;
  }

  public void setCashMargin(String cashMargin) {
    this.cashMargin = cashMargin;
  }

  public String getMemo() {
    return this.memo;
  }

  public void setMemo(String memo) {
    this.memo = memo;
  }

  @Override
  public void encode(ByteBuf byteBuf) {
    writeFixedString(byteBuf, this.memberId, 6);
    writeFixedString(byteBuf, this.investorType, 2);
    writeFixedString(byteBuf, this.investorId, 10);
    writeFixedString(byteBuf, this.investorName, 120);
    writeFixedString(byteBuf, this.traderCode, 8);
    writeFixedString(byteBuf, this.secondaryOrderId, 16);
    byteBuf.writeShort(this.bidTransType);
    byteBuf.writeShort(this.bidExecInstType);
    byteBuf.writeLong(this.lowLimitPrice);
    byteBuf.writeLong(this.highLimitPrice);
    byteBuf.writeLong(this.minQty);
    byteBuf.writeInt(this.tradeDate);
    byteBuf.writeShort(this.settlType);
    byteBuf.writeByte(this.settlPeriod);
    byteBuf.writeByte(this.preTradeAnonymity);
    writeFixedString(byteBuf, this.cashMargin, 1);
    writeFixedString(byteBuf, this.memo, 160);
  }

  @Override
  public void decode(ByteBuf byteBuf) {
    this.memberId = readFixedString(byteBuf, 6);
    this.investorType = readFixedString(byteBuf, 2);
    this.investorId = readFixedString(byteBuf, 10);
    this.investorName = readFixedString(byteBuf, 120);
    this.traderCode = readFixedString(byteBuf, 8);
    this.secondaryOrderId = readFixedString(byteBuf, 16);
    this.bidTransType = byteBuf.readShort();
    this.bidExecInstType = byteBuf.readShort();
    this.lowLimitPrice = byteBuf.readLong();
    this.highLimitPrice = byteBuf.readLong();
    this.minQty = byteBuf.readLong();
    this.tradeDate = byteBuf.readInt();
    this.settlType = byteBuf.readShort();
    this.settlPeriod = byteBuf.readByte();
    this.preTradeAnonymity = byteBuf.readByte();
    this.cashMargin = readFixedString(byteBuf, 1);
    this.memo = readFixedString(byteBuf, 160);
  }

  @Override
  public int hashCode() {
    return Objects.hash(
        memberId,
        investorType,
        investorId,
        investorName,
        traderCode,
        secondaryOrderId,
        bidTransType,
        bidExecInstType,
        lowLimitPrice,
        highLimitPrice,
        minQty,
        tradeDate,
        settlType,
        settlPeriod,
        preTradeAnonymity,
        cashMargin,
        memo);
  }

  @Override
  public boolean equals(Object obj) {
    if (this == obj) {
      return true;
    }
    if (null == obj || getClass() != obj.getClass()) {
      return false;
    }
    Extend104128 orther_ = (Extend104128) obj;
    return Objects.equals(memberId, orther_.memberId)
        && Objects.equals(investorType, orther_.investorType)
        && Objects.equals(investorId, orther_.investorId)
        && Objects.equals(investorName, orther_.investorName)
        && Objects.equals(traderCode, orther_.traderCode)
        && Objects.equals(secondaryOrderId, orther_.secondaryOrderId)
        && Objects.equals(bidTransType, orther_.bidTransType)
        && Objects.equals(bidExecInstType, orther_.bidExecInstType)
        && Objects.equals(lowLimitPrice, orther_.lowLimitPrice)
        && Objects.equals(highLimitPrice, orther_.highLimitPrice)
        && Objects.equals(minQty, orther_.minQty)
        && Objects.equals(tradeDate, orther_.tradeDate)
        && Objects.equals(settlType, orther_.settlType)
        && Objects.equals(settlPeriod, orther_.settlPeriod)
        && Objects.equals(preTradeAnonymity, orther_.preTradeAnonymity)
        && Objects.equals(cashMargin, orther_.cashMargin)
        && Objects.equals(memo, orther_.memo);
  }

  @Override
  public String toString() {
    return ""Extend104128 [""
        + ""memberId=""
        + this.memberId
        + "", investorType=""
        + this.investorType
        + "", investorId=""
        + this.investorId
        + "", investorName=""
        + this.investorName
        + "", traderCode=""
        + this.traderCode
        + "", secondaryOrderId=""
        + this.secondaryOrderId
        + "", bidTransType=""
        + this.bidTransType
        + "", bidExecInstType=""
        + this.bidExecInstType
        + "", lowLimitPrice=""
        + this.lowLimitPrice
        + "", highLimitPrice=""
        + this.highLimitPrice
        + "", minQty=""
        + this.minQty
        + "", tradeDate=""
        + this.tradeDate
        + "", settlType=""
        + this.settlType
        + "", settlPeriod=""
        + this.settlPeriod
        + "", preTradeAnonymity=""
        + this.preTradeAnonymity
        + "", cashMargin=""
        + this.cashMargin
        + "", memo=""
        + this.memo
        + ""]"";
  }
}
".

(* szse-bin/src/main/java/com/finproto/szse/bin/messages/Extend104701.java *)
Definition text_szse_Extend104701 : text :=
"// Code generated by fin-protoc. DO NOT EDIT.
package com.finproto.szse.bin.messages;

import com.finproto.codec.BinaryCodec;
import io.netty.buffer.ByteBuf;
import java.util.Objects;

public class Extend104701 implements BinaryCodec {
  private String secondaryOrderId;

  public String getSecondaryOrderId() {
    return this.secondaryOrderId;
  }

  public void setSecondaryOrderId(String secondaryOrderId) {
    this.secondaryOrderId = secondaryOrderId;
  }

  @Override
  public void encode(ByteBuf byteBuf) {
    writeFixedString(byteBuf, this.secondaryOrderId, 16);
  }

  @Override
  public void decode(ByteBuf byteBuf) {
    this.secondaryOrderId = readFixedString(byteBuf, 16);
  }

  @Override
  public int hashCode() {
    return Objects.hash(secondaryOrderId);
  }

  @Override
  public boolean equals(Object obj) {
    if (this == obj) {
      return true;
    }
    if (null == obj || getClass() != obj.getClass()) {
      return false;
    }
    Extend104701 orther_ = (Extend104701) obj;
    return Objects.equals(secondaryOrderId, orther_.secondaryOrderId);
  }

  @Override
  public String toString() {
    return ""Extend104701 ["" + ""secondaryOrderId="" + this.secondaryOrderId + ""]"";
  }
}
".

(* szse-bin/src/main/java/com/finproto/szse/bin/messages/Extend106301.java *)
Definition text_szse_Extend106301 : text :=
"// Code generated by fin-protoc. DO NOT EDIT.
package com.finproto.szse.bin.messages;

import com.finproto.codec.BinaryCodec;
import io.netty.buffer.ByteBuf;
import java.util.Objects;

public class Extend106301 implements BinaryCodec {
  private long stopPx;
  private long minQty;
  private short maxPriceLevels;
  private String timeInForce;
  private String lotType;

  public long getStopPx() {
    return this.stopPx;
  }

  public void setStopPx(long stopPx) {
    this.stopPx = stopPx;
  }

  public long getMinQty() {
    return this.minQty;
  }

  public void setMinQty(long minQty) {
    this.minQty = minQty;
  }

  public short getMaxPriceLevels() {
    return this.maxPriceLevels;
  }

  public void setMaxPriceLevels(short maxPriceLevels) {
    this.maxPriceLevels = maxPriceLevels;
  }

  public String getTimeInForce() {
    return this.timeInForce;
  }

  public void setTimeInForce(String timeInForce) {
    this.timeInForce = timeInForce;
  }

  public String getLotType() {
    return this.lotType;
  }

  public void setLotType(String lotType) {
    this.lotType = lotType;
  }

  @Override
  public void encode(ByteBuf byteBuf) {
    byteBuf.writeLong(this.stopPx);
    byteBuf.writeLong(this.minQty);
    byteBuf.writeShort(this.maxPriceLevels);
    writeFixedString(byteBuf, this.timeInForce, 1);
    writeFixedString(byteBuf, this.lotType, 1);
  }

  @Override
  public void decode(ByteBuf byteBuf) {
    this.stopPx = byteBuf.readLong();
    this.minQty = byteBuf.readLong();
    this.maxPriceLevels = byteBuf.readShort();
    this.timeInForce = readFixedString(byteBuf, 1);
    this.lotType = readFixedString(byteBuf, 1);
  }

  @Override
  public int hashCode() {
    return Objects.hash(stopPx, minQty, maxPriceLevels, timeInForce, lotType);
  }

  @Override
  public boolean equals(Object obj) {
    if (this == obj) {
      return true;
    }
    if (null == obj || getClass() != obj.getClass()) {
      return false;
    }
    Extend106301 orther_ = (Extend106301) obj;
    return Objects.equals(stopPx, orther_.stopPx)
        && Objects.equals(minQty, orther_.minQty)
        && Objects.equals(maxPriceLevels, orther_.maxPriceLevels)
        && Objects.equals(timeInForce, orther_.timeInForce)
        && Objects.equals(lotType, orther_.lotType);
  }

  @Override
  public String toString() {
    return ""Extend106301 [""
        + ""stopPx=""
        + this.stopPx
        + "", minQty=""
        + this.minQty
        + "", maxPriceLevels=""
        + this.maxPriceLevels
        + "", timeInForce=""
        + this.timeInForce
        + "", lotType=""
        + this.lotType
        + ""]"";
  }
}
".

(* szse-bin/src/main/java/com/finproto/szse/bin/messages/Extend200102.java *)
Definition text_szse_Extend200102 : text :=
"// Code generated by fin-protoc. DO NOT EDIT.
package com.finproto.szse.bin.messages;

import com.finproto.codec.BinaryCodec;
import io.netty.buffer.ByteBuf;
import java.util.Objects;

public class Extend200102 implements BinaryCodec {
  private long stopPx;
  private long minQty;
  private short maxPriceLevels;
  private String timeInForce;
  private String cashMargin;

  public long getStopPx() {
    return this.stopPx;
  }

  public void setStopPx(long stopPx) {
    this.stopPx = stopPx;
  }

  public long getMinQty() {
    return this.minQty;
  }

  public void setMinQty(long minQty) {
    this.minQty = minQty;
  }

  public short getMaxPriceLevels() {
    return this.maxPriceLevels;
  }

  public void setMaxPriceLevels(short maxPriceLevels) {
    this.maxPriceLevels = maxPriceLevels;
  }

  public String getTimeInForce() {
    return this.timeInForce;
  }

  public void setTimeInForce(String timeInForce) {
    this.timeInForce = timeInForce;
  }

  public String getCashMargin() {
    return this.cashMargin;
  }

  public void setCashMargin(String cashMargin) {
    this.cashMargin = cashMargin;
  }

  @Override
  public void encode(ByteBuf byteBuf) {
    byteBuf.writeLong(this.stopPx);
    byteBuf.writeLong(this.minQty);
    byteBuf.writeShort(this.maxPriceLevels);
    writeFixedString(byteBuf, this.timeInForce, 1);
    writeFixedString(byteBuf, this.cashMargin, 1);
  }

  @Override
  public void decode(ByteBuf byteBuf) {
    this.stopPx = byteBuf.readLong();
    this.minQty = byteBuf.readLong();
    this.maxPriceLevels = byteBuf.readShort();
    this.timeInForce = readFixedString(byteBuf, 1);
    this.cashMargin = readFixedString(byteBuf, 1);
  }

  @Override
  public int hashCode() {
    return Objects.hash(stopPx, minQty, maxPriceLevels, timeInForce, cashMargin);
  }

  @Override
  public boolean equals(Object obj) {
    if (this == obj) {
      return true;
    }
    if (null == obj || getClass() != obj.getClass()) {
      return false;
    }
    Extend200102 orther_ = (Extend200102) obj;
    return Objects.equals(stopPx, orther_.stopPx)
        && Objects.equals(minQty, orther_.minQty)
        && Objects.equals(maxPriceLevels, orther_.maxPriceLevels)
        && Objects.equals(timeInForce, orther_.timeInForce)
        && Objects.equals(cashMargin, orther_.cashMargin);
  }

  @Override
  public String toString() {
    return ""Extend200102 [""
        + ""stopPx=""
        + this.stopPx
        + "", minQty=""
        + this.minQty
        + "", maxPriceLevels=""
        + this.maxPriceLevels
        + "", timeInForce=""
        + this.timeInForce
        + "", cashMargin=""
        + this.cashMargin
        + ""]"";
  }
}
".

(* szse-bin/src/main/java/com/finproto/szse/bin/messages/Extend200115.java *)
Definition text_szse_Extend200115 : text :=
"// Code generated by fin-protoc. DO NOT EDIT.
package com.finproto.szse.bin.messages;

import com.finproto.codec.BinaryCodec;
import io.netty.buffer.ByteBuf;
import java.util.Objects;

public class Extend200115 implements BinaryCodec {
  private String cashMargin;

  public String getCashMargin() {
    return this.cashMargin;
  }

  public void setCashMargin(String cashMargin) {
    this.cashMargin = cashMargin;
  }

  @Override
  public void encode(ByteBuf byteBuf) {
    writeFixedString(byteBuf, this.cashMargin, 1);
  }

  @Override
  public void decode(ByteBuf byteBuf) {
    this.cashMargin = readFixedString(byteBuf, 1);
  }

  @Override
  public int hashCode() {
    return Objects.hash(cashMargin);
  }

  @Override
  public boolean equals(Object obj) {
    if (this == obj) {
      return true;
    }
    if (null == obj || getClass() != obj.getClass()) {
      return false;
    }
    Extend200115 orther_ = (Extend200115) obj;
    return Objects.equals(cashMargin, orther_.cashMargin);
  }

  @Override
  public String toString() {
    return ""Extend200115 ["" + ""cashMargin="" + this.cashMargin + ""]"";
  }
}
".

(* szse-bin/src/main/java/com/finproto/szse/bin/messages/Extend200202.java *)
Definition text_szse_Extend200202 : text :=
"// Code generated by fin-protoc. DO NOT EDIT.
package com.finproto.szse.bin.messages;

import com.finproto.codec.BinaryCodec;
import io.netty.buffer.ByteBuf;
import java.util.Objects;

public class Extend200202 implements BinaryCodec {
  private long stopPx;
  private long minQty;
  private short maxPriceLevels;
  private String timeInForce;

  public long getStopPx() {
    return this.stopPx;
  }

  public void setStopPx(long stopPx) {
    this.stopPx = stopPx;
  }

  public long getMinQty() {
    return this.minQty;
  }

  public void setMinQty(long minQty) {
    this.minQty = minQty;
  }

  public short getMaxPriceLevels() {
    return this.maxPriceLevels;
  }

  public void setMaxPriceLevels(short maxPriceLevels) {
    this.maxPriceLevels = maxPriceLevels;
  }

  public String getTimeInForce() {
    return this.timeInForce;
  }

  public void setTimeInForce(String timeInForce) {
    this.timeInForce = timeInForce;
  }

  @Override
  public void encode(ByteBuf byteBuf) {
    byteBuf.writeLong(this.stopPx);
    byteBuf.writeLong(this.minQty);
    byteBuf.writeShort(this.maxPriceLevels);
    writeFixedString(byteBuf, this.timeInForce, 1);
  }

  @Override
  public void decode(ByteBuf byteBuf) {
    this.stopPx = byteBuf.readLong();
    this.minQty = byteBuf.readLong();
    this.maxPriceLevels = byteBuf.readShort();
    this.timeInForce = readFixedString(byteBuf, 1);
  }

  @Override
  public int hashCode() {
    return Objects.hash(stopPx, minQty, maxPriceLevels, timeInForce);
  }

  @Override
  public boolean equals(Object obj) {
    if (this == obj) {
      return true;
    }
    if (null == obj || getClass() != obj.getClass()) {
      return false;
    }
    Extend200202 orther_ = (Extend200202) obj;
    return Objects.equals(stopPx, orther_.stopPx)
        && Objects.equals(minQty, orther_.minQty)
        && Objects.equals(maxPriceLevels, orther_.maxPriceLevels)
        && Objects.equals(timeInForce, orther_.timeInForce);
  }

  @Override
  public String toString() {
    return ""Extend200202 [""
        + ""stopPx=""
        + this.stopPx
        + "", minQty=""
        + this.minQty
        + "", maxPriceLevels=""
        + this.maxPriceLevels
        + "", timeInForce=""
        + this.timeInForce
        + ""]"";
  }
}
".

(* szse-bin/src/main/java/com/finproto/szse/bin/messages/Extend200215.java *)
Definition text_szse_Extend200215 : text :=
"// Code generated by fin-protoc. DO NOT EDIT.
package com.finproto.szse.bin.messages;

import com.finproto.codec.BinaryCodec;
import io.netty.buffer.ByteBuf;
import java.util.Objects;

public class Extend200215 implements BinaryCodec {
  private int maturityDate;

  public int getMaturityDate() {
    return this.maturityDate;
  }

  public void setMaturityDate(int maturityDate) {
    this.maturityDate = maturityDate;
  }

  @Override
  public void encode(ByteBuf byteBuf) {
    byteBuf.writeInt(this.maturityDate);
  }

  @Override
  public void decode(ByteBuf byteBuf) {
    this.maturityDate = byteBuf.readInt();
  }

  @Override
  public int hashCode() {
    return Objects.hash(maturityDate);
  }

  @Override
  public boolean equals(Object obj) {
    if (this == obj) {
      return true;
    }
    if (null == obj || getClass() != obj.getClass()) {
      return false;
    }
    Extend200215 orther_ = (Extend200215) obj;
    return Objects.equals(maturityDate, orther_.maturityDate);
  }

  @Override
  public String toString() {
    return ""Extend200215 ["" + ""maturityDate="" + this.maturityDate + ""]"";
  }
}
".

(* szse-bin/src/main/java/com/finproto/szse/bin/messages/Extend200302.java *)
Definition text_szse_Extend200302 : text :=
"// Code generated by fin-protoc. DO NOT EDIT.
package com.finproto.szse.bin.messages;

import com.finproto.codec.BinaryCodec;
import io.netty.buffer.ByteBuf;
import java.util.Objects;

public class Extend200302 implements BinaryCodec {
  private long stopPx;
  private long minQty;
  private short maxPriceLevels;
  private String timeInForce;

  public long getStopPx() {
    return this.stopPx;
  }

  public void setStopPx(long stopPx) {
    this.stopPx = stopPx;
  }

  public long getMinQty() {
    return this.minQty;
  }

  public void setMinQty(long minQty) {
    this.minQty = minQty;
  }

  public short getMaxPriceLevels() {
    return this.maxPriceLevels;
  }

  public void setMaxPriceLevels(short maxPriceLevels) {
    this.maxPriceLevels = maxPriceLevels;
  }

  public String getTimeInForce() {
    return this.timeInForce;
  }

  public void setTimeInForce(String timeInForce) {
    this.timeInForce = timeInForce;
  }

  @Override
  public void encode(ByteBuf byteBuf) {
    byteBuf.writeLong(this.stopPx);
    byteBuf.writeLong(this.minQty);
    byteBuf.writeShort(this.maxPriceLevels);
    writeFixedString(byteBuf, this.timeInForce, 1);
  }

  @Override
  public void decode(ByteBuf byteBuf) {
    this.stopPx = byteBuf.readLong();
    this.minQty = byteBuf.readLong();
    this.maxPriceLevels = byteBuf.readShort();
    this.timeInForce = readFixedString(byteBuf, 1);
  }

  @Override
  public int hashCode() {
    return Objects.hash(stopPx, minQty, maxPriceLevels, timeInForce);
  }

  @Override
  public boolean equals(Object obj) {
    if (this == obj) {
      return true;
    }
    if (null == obj || getClass() != obj.getClass()) {
      return false;
    }
    Extend200302 orther_ = (Extend200302) obj;
    return Objects.equals(stopPx, orther_.stopPx)
        && Objects.equals(minQty, orther_.minQty)
        && Objects.equals(maxPriceLevels, orther_.maxPriceLevels)
        && Objects.equals(timeInForce, orther_.timeInForce);
  }

  @Override
  public String toString() {
    return ""Extend200302 [""
        + ""stopPx=""
        + this.stopPx
        + "", minQty=""
        + this.minQty
        + "", maxPriceLevels=""
        + this.maxPriceLevels
        + "", timeInForce=""
        + this.timeInForce
        + ""]"";
  }
}
".

(* szse-bin/src/main/java/com/finproto/szse/bin/messages/Extend200315.java *)
Definition text_szse_Extend200315 : text :=
"// Code generated by fin-protoc. DO NOT EDIT.
package com.finproto.szse.bin.messages;

import com.finproto.codec.BinaryCodec;
import io.netty.buffer.ByteBuf;
import java.util.Objects;

public class Extend200315 implements BinaryCodec {
  private int maturityDate;

  public int getMaturityDate() {
    return this.maturityDate;
  }

  public void setMaturityDate(int maturityDate) {
    this.maturityDate = maturityDate;
  }

  @Override
  public void encode(ByteBuf byteBuf) {
    byteBuf.writeInt(this.maturityDate);
  }

  @Override
  public void decode(ByteBuf byteBuf) {
    this.maturityDate = byteBuf.readInt();
  }

  @Override
  public int hashCode() {
    return Objects.hash(maturityDate);
  }

  @Override
  public boolean equals(Object obj) {
    if (this == obj) {
      return true;
    }
    if (null == obj || getClass() != obj.getClass()) {
      return false;
    }
    Extend200315 orther_ = (Extend200315) obj;
    return Objects.equals(maturityDate, orther_.maturityDate);
  }

  @Override
  public String toString() {
    return ""Extend200315 ["" + ""maturityDate="" + this.maturityDate + ""]"";
  }
}
".

(* szse-bin/src/main/java/com/finproto/szse/bin/messages/Extend200402.java *)
Definition text_szse_Extend200402 : text :=
"// Code generated by fin-protoc. DO NOT EDIT.
package com.finproto.szse.bin.messages;

import com.finproto.codec.BinaryCodec;
import io.netty.buffer.ByteBuf;
import java.util.Objects;

public class Extend200402 implements BinaryCodec {
  private long stopPx;
  private long minQty;
  private short maxPriceLevels;
  private String timeInForce;
  private String positionEffect;
  private byte coveredOrUncovered;
  private String contractAccountCode;
  private String secondaryOrderId;

  public long getStopPx() {
    return this.stopPx;
  }

  public void setStopPx(long stopPx) {
    this.stopPx = stopPx;
  }

  public long getMinQty() {
    return this.minQty;
  }

  public void setMinQty(long minQty) {
    this.minQty = minQty;
  }

  public short getMaxPriceLevels() {
    return this.maxPriceLevels;
  }

  public void setMaxPriceLevels(short maxPriceLevels) {
    this.maxPriceLevels = maxPriceLevels;
  }

  public String getTimeInForce() {
    return this.timeInForce;
  }

  public void setTimeInForce(String timeInForce) {
    this.timeInForce = timeInForce;
  }

  public String getPositionEffect() {
    return this.positionEffect;
  }

  public void setPositionEffect(String positionEffect) {
    this.positionEffect = positionEffect;
  }

  public byte getCoveredOrUncovered() {
    return this.coveredOrUncovered;
  }

  public void setCoveredOrUncovered(byte coveredOrUncovered) {
    this.coveredOrUncovered = coveredOrUncovered;
  }

  public String getContractAccountCode() {
    return this.contractAccountCode;
  }

  public void setContractAccountCode(String contractAccountCode) {
    this.contractAccountCode = contractAccountCode;
  }

  public String getSecondaryOrderId() {
    return this.secondaryOrderId;
  }

  public void setSecondaryOrderId(String secondaryOrderId) {
    this.secondaryOrderId = secondaryOrderId;
  }

  @Override
  public void encode(ByteBuf byteBuf) {
    byteBuf.writeLong(this.stopPx);
    byteBuf.writeLong(this.minQty);
    byteBuf.writeShort(this.maxPriceLevels);
    writeFixedString(byteBuf, this.timeInForce, 1);
    writeFixedString(byteBuf, this.positionEffect, 1);
    byteBuf.writeByte(this.coveredOrUncovered);
    writeFixedString(byteBuf, this.contractAccountCode, 6);
    writeFixedString(byteBuf, this.secondaryOrderId, 16);
  }

  @Override
  public void decode(ByteBuf byteBuf) {
    this.stopPx = byteBuf.readLong();
    this.minQty = byteBuf.readLong();
    this.maxPriceLevels = byteBuf.readShort();
    this.timeInForce = readFixedString(byteBuf, 1);
    this.positionEffect = readFixedString(byteBuf, 1);
    this.coveredOrUncovered = byteBuf.readByte();
    this.contractAccountCode = readFixedString(byteBuf, 6);
    this.secondaryOrderId = readFixedString(byteBuf, 16);
  }

  @Override
  public int hashCode() {
    return Objects.hash(
        stopPx,
        minQty,
        maxPriceLevels,
        timeInForce,
        positionEffect,
        coveredOrUncovered,
        contractAccountCode,
        secondaryOrderId);
  }

  @Override
  public boolean equals(Object obj) {
    if (this == obj) {
      return true;
    }
    if (null == obj || getClass() != obj.getClass()) {
      return false;
    }
    Extend200402 orther_ = (Extend200402) obj;
    return Objects.equals(stopPx, orther_.stopPx)
        && Objects.equals(minQty, orther_.minQty)
        && Objects.equals(maxPriceLevels, orther_.maxPriceLevels)
        && Objects.equals(timeInForce, orther_.timeInForce)
        && Objects.equals(positionEffect, orther_.positionEffect)
        && Objects.equals(coveredOrUncovered, orther_.coveredOrUncovered)
        && Objects.equals(contractAccountCode, orther_.contractAccountCode)
        && Objects.equals(secondaryOrderId, orther_.secondaryOrderId);
  }

  @Override
  public String toString() {
    return ""Extend200402 [""
        + ""stopPx=""
        + this.stopPx
        + "", minQty=""
        + this.minQty
        + "", maxPriceLevels=""
        + this.maxPriceLevels
        + "", timeInForce=""
        + this.timeInForce
        + "", positionEffect=""
        + this.positionEffect
        + "", coveredOrUncovered=""
        + this.coveredOrUncovered
        + "", contractAccountCode=""
        + this.contractAccountCode
        + "", secondaryOrderId=""
        + this.secondaryOrderId
        + ""]"";
  }
}
".

(* szse-bin/src/main/java/com/finproto/szse/bin/messages/Extend200415.java *)
Definition text_szse_Extend200415 : text :=
"// Code generated by fin-protoc. DO NOT EDIT.
package com.finproto.szse.bin.messages;

import com.finproto.codec.BinaryCodec;
import io.netty.buffer.ByteBuf;
import java.util.Objects;

public class Extend200415 implements BinaryCodec {
  private String positionEffect;
  private byte coveredOrUncovered;
  private String contractAccountCode;
  private String secondaryOrderId;

  public String getPositionEffect() {
    return this.positionEffect;
  }

  public void setPositionEffect(String positionEffect) {
    this.positionEffect = positionEffect;
  }

  public byte getCoveredOrUncovered() {
    return this.coveredOrUncovered;
  }

  public void setCoveredOrUncovered(byte coveredOrUncovered) {
    this.coveredOrUncovered = coveredOrUncovered;
  }

  public String getContractAccountCode() {
    return this.contractAccountCode;
  }

  public void setContractAccountCode(String contractAccountCode) {
    this.contractAccountCode = contractAccountCode;
  }

  public String getSecondaryOrderId() {
    return this.secondaryOrderId;
  }

  public void setSecondaryOrderId(String secondaryOrderId) {
    this.secondaryOrderId = secondaryOrderId;
  }

  @Override
  public void encode(ByteBuf byteBuf) {
    writeFixedString(byteBuf, this.positionEffect, 1);
    byteBuf.writeByte(this.coveredOrUncovered);
    writeFixedString(byteBuf, this.contractAccountCode, 6);
    writeFixedString(byteBuf, this.secondaryOrderId, 16);
  }

  @Override
  public void decode(ByteBuf byteBuf) {
    this.positionEffect = readFixedString(byteBuf, 1);
    this.coveredOrUncovered = byteBuf.readByte();
    this.contractAccountCode = readFixedString(byteBuf, 6);
    this.secondaryOrderId = readFixedString(byteBuf, 16);
  }

  @Override
  public int hashCode() {
    return Objects.hash(positionEffect, coveredOrUncovered, contractAccountCode, secondaryOrderId);
  }

  @Override
  public boolean equals(Object obj) {
    if (this == obj) {
      return true;
    }
    if (null == obj || getClass() != obj.getClass()) {
      return false;
    }
    Extend200415 orther_ = (Extend200415) obj;
    return Objects.equals(positionEffect, orther_.positionEffect)
        && Objects.equals(coveredOrUncovered, orther_.coveredOrUncovered)
        && Objects.equals(contractAccountCode, orther_.contractAccountCode)
        && Objects.equals(secondaryOrderId, orther_.secondaryOrderId);
  }

  @Override
  public String toString() {
    return ""Extend200415 [""
        + ""positionEffect=""
        + this.positionEffect
        + "", coveredOrUncovered=""
        + this.coveredOrUncovered
        + "", contractAccountCode=""
        + this.contractAccountCode
        + "", secondaryOrderId=""
        + this.secondaryOrderId
        + ""]"";
  }
}
".

(* szse-bin/src/main/java/com/finproto/szse/bin/messages/Extend200502.java *)
Definition text_szse_Extend200502 : text :=
"// Code generated by fin-protoc. DO NOT EDIT.
package com.finproto.szse.bin.messages;

import com.finproto.codec.BinaryCodec;
import io.netty.buffer.ByteBuf;
import java.util.Objects;

public class Extend200502 implements BinaryCodec {
  private String confirmId;
  private String cashMargin;

  public String getConfirmId() {
    return this.confirmId;
  }

  public void setConfirmId(String confirmId) {
    this.confirmId = confirmId;
  }

  public String getCashMargin() {
    return this.cashMargin;
  }

  public void setCashMargin(String cashMargin) {
    this.cashMargin = cashMargin;
  }

  @Override
  public void encode(ByteBuf byteBuf) {
    writeFixedString(byteBuf, this.confirmId, 8);
    writeFixedString(byteBuf, this.cashMargin, 1);
  }

  @Override
  public void decode(ByteBuf byteBuf) {
    this.confirmId = readFixedString(byteBuf, 8);
    this.cashMargin = readFixedString(byteBuf, 1);
  }

  @Override
  public int hashCode() {
    return Objects.hash(confirmId, cashMargin);
  }

  @Override
  public boolean equals(Object obj) {
    if (this == obj) {
      return true;
    }
    if (null == obj || getClass() != obj.getClass()) {
      return false;
    }
    Extend200502 orther_ = (Extend200502) obj;
    return Objects.equals(confirmId, orther_.confirmId)
        && Objects.equals(cashMargin, orther_.cashMargin);
  }

  @Override
  public String toString() {
    return ""Extend200502 [""
        + ""confirmId=""
        + this.confirmId
        + "", cashMargin=""
        + this.cashMargin
        + ""]"";
  }
}
".

(* szse-bin/src/main/java/com/finproto/szse/bin/messages/Extend200515.java *)
Definition text_szse_Extend200515 : text :=
"// Code generated by fin-protoc. DO NOT EDIT.
package com.finproto.szse.bin.messages;

import com.finproto.codec.BinaryCodec;
import io.netty.buffer.ByteBuf;
import java.util.Objects;

public class Extend200515 implements BinaryCodec {
  private String confirmId;
  private String cashMargin;

  public String getConfirmId() {
    return this.confirmId;
  }

  public void setConfirmId(String confirmId) {
    this.confirmId = confirmId;
  }

  public String getCashMargin() {
    return this.cashMargin;
  }

  public void setCashMargin(String cashMargin) {
    this.cashMargin = cashMargin;
  }

  @Override
  public void encode(ByteBuf byteBuf) {
    writeFixedString(byteBuf, this.confirmId, 8);
    writeFixedString(byteBuf, this.cashMargin, 1);
  }

  @Override
  public void decode(ByteBuf byteBuf) {
    this.confirmId = readFixedString(byteBuf, 8);
    this.cashMargin = readFixedString(byteBuf, 1);
  }

  @Override
  public int hashCode() {
    return Objects.hash(confirmId, cashMargin);
  }

  @Override
  public boolean equals(Object obj) {
    if (this == obj) {
      return true;
    }
    if (null == obj || getClass() != obj.getClass()) {
      return false;
    }
    Extend200515 orther_ = (Extend200515) obj;
    return Objects.equals(confirmId, orther_.confirmId)
        && Objects.equals(cashMargin, orther_.cashMargin);
  }

  @Override
  public String toString() {
    return ""Extend200515 [""
        + ""confirmId=""
        + this.confirmId
        + "", cashMargin=""
        + this.cashMargin
        + ""]"";
  }
}
".

(* szse-bin/src/main/java/com/finproto/szse/bin/messages/Extend200602.java *)
Definition text_szse_Extend200602 : text :=
"// Code generated by fin-protoc. DO NOT EDIT.
package com.finproto.szse.bin.messages;

import com.finproto.codec.BinaryCodec;
import io.netty.buffer.ByteBuf;
import java.util.Objects;

public class Extend200602 implements BinaryCodec {
  private String cashMargin;

  public String getCashMargin() {
    return this.cashMargin;
  }

  public void setCashMargin(String cashMargin) {
    this.cashMargin = cashMargin;
  }

  @Override
  public void encode(ByteBuf byteBuf) {
    writeFixedString(byteBuf, this.cashMargin, 1);
  }

  @Override
  public void decode(ByteBuf byteBuf) {
    this.cashMargin = readFixedString(byteBuf, 1);
  }

  @Override
  public int hashCode() {
    return Objects.hash(cashMargin);
  }

  @Override
  public boolean equals(Object obj) {
    if (this == obj) {
      return true;
    }
    if (null == obj || getClass() != obj.getClass()) {
      return false;
    }
    Extend200602 orther_ = (Extend200602) obj;
    return Objects.equals(cashMargin, orther_.cashMargin);
  }

  @Override
  public String toString() {
    return ""Extend200602 ["" + ""cashMargin="" + this.cashMargin + ""]"";
  }
}
".

(* szse-bin/src/main/java/com/finproto/szse/bin/messages/Extend200615.java *)
Definition text_szse_Extend200615 : text :=
"// Code generated by fin-protoc. DO NOT EDIT.
package com.finproto.szse.bin.messages;

import com.finproto.codec.BinaryCodec;
import io.netty.buffer.ByteBuf;
import java.util.Objects;

public class Extend200615 implements BinaryCodec {
  private String cashMargin;

  public String getCashMargin() {
    return this.cashMargin;
  }

  public void setCashMargin(String cashMargin) {
    this.cashMargin = cashMargin;
  }

  @Override
  public void encode(ByteBuf byteBuf) {
    writeFixedString(byteBuf, this.cashMargin, 1);
  }

  @Override
  public void decode(ByteBuf byteBuf) {
    this.cashMargin = readFixedString(byteBuf, 1);
  }

  @Override
  public int hashCode() {
    return Objects.hash(cashMargin);
  }

  @Override
  public boolean equals(Object obj) {
    if (this == obj) {
      return true;
    }
    if (null == obj || getClass() != obj.getClass()) {
      return false;
    }
    Extend200615 orther_ = (Extend200615) obj;
    return Objects.equals(cashMargin, orther_.cashMargin);
  }

  @Override
  public String toString() {
    return ""Extend200615 ["" + ""cashMargin="" + this.cashMargin + ""]"";
  }
}
".

(* szse-bin/src/main/java/com/finproto/szse/bin/messages/Extend200702.java *)
Definition text_szse_Extend200702 : text :=
"// Code generated by fin-protoc. DO NOT EDIT.
package com.finproto.szse.bin.messages;

import com.finproto.codec.BinaryCodec;
import io.netty.buffer.ByteBuf;
import java.util.Objects;

public class Extend200702 implements BinaryCodec {
  private short expirationDays;
  private byte expirationType;
  private String shareProperty;

  public short getExpirationDays() {
    return this.expirationDays;
  }

  public void setExpirationDays(short expirationDays) {
    this.expirationDays = expirationDays;
  }

  public byte getExpirationType() {
    return this.expirationType;
  }

  public void setExpirationType(byte expirationType) {
    this.expirationType = expirationType;
  }

  public String getShareProperty() {
    return this.shareProperty;
  }

  public void setShareProperty(String shareProperty) {
    this.shareProperty = shareProperty;
  }

  @Override
  public void encode(ByteBuf byteBuf) {
    byteBuf.writeShort(this.expirationDays);
    byteBuf.writeByte(this.expirationType);
    writeFixedString(byteBuf, this.shareProperty, 2);
  }

  @Override
  public void decode(ByteBuf byteBuf) {
    this.expirationDays = byteBuf.readShort();
    this.expirationType = byteBuf.readByte();
    this.shareProperty = readFixedString(byteBuf, 2);
  }

  @Override
  public int hashCode() {
    return Objects.hash(expirationDays, expirationType, shareProperty);
  }

  @Override
  public boolean equals(Object obj) {
    if (this == obj) {
      return true;
    }
    if (null == obj || getClass() != obj.getClass()) {
      return false;
    }
    Extend200702 orther_ = (Extend200702) obj;
    return Objects.equals(expirationDays, orther_.expirationDays)
        && Objects.equals(expirationType, orther_.expirationType)
        && Objects.equals(shareProperty, orther_.shareProperty);
  }

  @Override
  public String toString() {
    return ""Extend200702 [""
        + ""expirationDays=""
        + this.expirationDays
        + "", expirationType=""
        + this.expirationType
        + "", shareProperty=""
        + this.shareProperty
        + ""]"";
  }
}
".

(* szse-bin/src/main/java/com/finproto/szse/bin/messages/Extend200715.java *)
Definition text_szse_Extend200715 : text :=
"// Code generated by fin-protoc. DO NOT EDIT.
package com.finproto.szse.bin.messages;

import com.finproto.codec.BinaryCodec;
import io.netty.buffer.ByteBuf;
import java.util.Objects;

public class Extend200715 implements BinaryCodec {
  private short expirationDays;
  private byte expirationType;
  private int maturityDate;
  private String shareProperty;

  public short getExpirationDays() {
    return this.expirationDays;
  }

  public void setExpirationDays(short expirationDays) {
    this.expirationDays = expirationDays;
  }

  public byte getExpirationType() {
    return this.expirationType;
  }

  public void setExpirationType(byte expirationType) {
    this.expirationType = expirationType;
  }

  public int getMaturityDate() {
    return this.maturityDate;
  }

  public void setMaturityDate(int maturityDate) {
    this.maturityDate = maturityDate;
  }

  public String getShareProperty() {
    return this.shareProperty;
  }

  public void setShareProperty(String shareProperty) {
    this.shareProperty = shareProperty;
  }

  @Override
  public void encode(ByteBuf byteBuf) {
    byteBuf.writeShort(this.expirationDays);
    byteBuf.writeByte(this.expirationType);
    byteBuf.writeInt(this.maturityDate);
    writeFixedString(byteBuf, this.shareProperty, 2);
  }

  @Override
  public void decode(ByteBuf byteBuf) {
    this.expirationDays = byteBuf.readShort();
    this.expirationType = byteBuf.readByte();
    this.maturityDate = byteBuf.readInt();
    this.shareProperty = readFixedString(byteBuf, 2);
  }

  @Override
  public int hashCode() {
    return Objects.hash(expirationDays, expirationType, maturityDate, shareProperty);
  }

  @Override
  public boolean equals(Object obj) {
    if (this == obj) {
      return true;
    }
    if (null == obj || getClass() != obj.getClass()) {
      return false;
    }
    Extend200715 orther_ = (Extend200715) obj;
    return Objects.equals(expirationDays, orther_.expirationDays)
        && Objects.equals(expirationType, orther_.expirationType)
        && Objects.equals(maturityDate, orther_.maturityDate)
        && Objects.equals(shareProperty, orther_.shareProperty);
  }

  @Override
  public String toString() {
    return ""Extend200715 [""
        + ""expirationDays=""
        + this.expirationDays
        + "", expirationType=""
        + this.expirationType
        + "", maturityDate=""
        + this.maturityDate
        + "", shareProperty=""
        + this.shareProperty
        + ""]"";
  }
}
".

(* szse-bin/src/main/java/com/finproto/szse/bin/messages/Extend201202.java *)
Definition text_szse_Extend201202 : text :=
"// Code generated by fin-protoc. DO NOT EDIT.
package com.finproto.szse.bin.messages;

import com.finproto.codec.BinaryCodec;
import io.netty.buffer.ByteBuf;
import java.util.Objects;

public class Extend201202 implements BinaryCodec {
  private String insufficientSecurityId;
  private int noSecurity;
  private String underlyingSecurityId;
  private String underlyingSecurityIdsource;
  private long deliveryQty;
  private long substCash;

  public String getInsufficientSecurityId() {
    return this.insufficientSecurityId;
  }

  public void setInsufficientSecurityId(String insufficientSecurityId) {
    this.insufficientSecurityId = insufficientSecurityId;
  }

  public int getNoSecurity() {
    return this.noSecurity;
  }

  public void setNoSecurity(int noSecurity) {
    this.noSecurity = noSecurity;
  }

  public String getUnderlyingSecurityId() {
    return this.underlyingSecurityId;
  }

  public void setUnderlyingSecurityId(String underlyingSecurityId) {
    this.underlyingSecurityId = underlyingSecurityId;
  }

  public String getUnderlyingSecurityIdsource() {
    return this.underlyingSecurityIdsource;
  }

  public void setUnderlyingSecurityIdsource(String underlyingSecurityIdsource) {
    this.underlyingSecurityIdsource = underlyingSecurityIdsource;
  }

  public long getDeliveryQty() {
    return this.deliveryQty;
  }

  public void setDeliveryQty(long deliveryQty) {
    this.deliveryQty = deliveryQty;
  }

  public long getSubstCash() {
    return this.substCash;
  }

  public void setSubstCash(long substCash) {
    this.substCash = substCash;
  }

  @Override
  public void encode(ByteBuf byteBuf) {
    writeFixedString(byteBuf, this.insufficientSecurityId, 8);
    byteBuf.writeInt(this.noSecurity);
    writeFixedString(byteBuf, this.underlyingSecurityId, 8);
    writeFixedString(byteBuf, this.underlyingSecurityIdsource, 4);
    byteBuf.writeLong(this.deliveryQty);
    byteBuf.writeLong(this.substCash);
  }

  @Override
  public void decode(ByteBuf byteBuf) {
    this.insufficientSecurityId = readFixedString(byteBuf, 8);
    this.noSecurity = byteBuf.readInt();
    this.underlyingSecurityId = readFixedString(byteBuf, 8);
    this.underlyingSecurityIdsource = readFixedString(byteBuf, 4);
    this.deliveryQty = byteBuf.readLong();
    this.substCash = byteBuf.readLong();
  }

  @Override
  public int hashCode() {
    return Objects.hash(
        insufficientSecurityId,
        noSecurity,
        underlyingSecurityId,
        underlyingSecurityIdsource,
        deliveryQty,
        substCash);
  }

  @Override
  public boolean equals(Object obj) {
    if (this == obj) {
      return true;
    }
    if (null == obj || getClass() != obj.getClass()) {
      return false;
    }
    Extend201202 orther_ = (Extend201202) obj;
    return Objects.equals(insufficientSecurityId, orther_.insufficientSecurityId)
        && Objects.equals(noSecurity, orther_.noSecurity)
        && Objects.equals(underlyingSecurityId, orther_.underlyingSecurityId)
        && Objects.equals(underlyingSecurityIdsource, orther_.underlyingSecurityIdsource)
        && Objects.equals(deliveryQty, orther_.deliveryQty)
        && Objects.equals(substCash, orther_.substCash);
  }

  @Override
  public String toString() {
    return ""Extend201202 [""
        + ""insufficientSecurityId=""
        + this.insufficientSecurityId
        + "", noSecurity=""
        + this.noSecurity
        + "", underlyingSecurityId=""
        + this.underlyingSecurityId
        + "", underlyingSecurityIdsource=""
        + this.underlyingSecurityIdsource
        + "", deliveryQty=""
        + this.deliveryQty
        + "", substCash=""
        + this.substCash
        + ""]"";
  }
}
".

(* szse-bin/src/main/java/com/finproto/szse/bin/messages/Extend201502.java *)
Definition text_szse_Extend201502 : text :=
"// Code generated by fin-protoc. DO NOT EDIT.
package com.finproto.szse.bin.messages;

import com.finproto.codec.BinaryCodec;
import io.netty.buffer.ByteBuf;
import java.util.Objects;

public class Extend201502 implements BinaryCodec {
  private String shareProperty;

  public String getShareProperty() {
    return this.shareProperty;
  }

  public void setShareProperty(String shareProperty) {
    this.shareProperty = shareProperty;
  }

  @Override
  public void encode(ByteBuf byteBuf) {
    writeFixedString(byteBuf, this.shareProperty, 2);
  }

  @Override
  public void decode(ByteBuf byteBuf) {
    this.shareProperty = readFixedString(byteBuf, 2);
  }

  @Override
  public int hashCode() {
    return Objects.hash(shareProperty);
  }

  @Override
  public boolean equals(Object obj) {
    if (this == obj) {
      return true;
    }
    if (null == obj || getClass() != obj.getClass()) {
      return false;
    }
    Extend201502 orther_ = (Extend201502) obj;
    return Objects.equals(shareProperty, orther_.shareProperty);
  }

  @Override
  public String toString() {
    return ""Extend201502 ["" + ""shareProperty="" + this.shareProperty + ""]"";
  }
}
".

(* szse-bin/src/main/java/com/finproto/szse/bin/messages/Extend201602.java *)
Definition text_szse_Extend201602 : text :=
"// Code generated by fin-protoc. DO NOT EDIT.
package com.finproto.szse.bin.messages;

import com.finproto.codec.BinaryCodec;
import io.netty.buffer.ByteBuf;
import java.util.Objects;

public class Extend201602 implements BinaryCodec {
  private String contractAccountCode;

  public String getContractAccountCode() {
    return this.contractAccountCode;
  }

  public void setContractAccountCode(String contractAccountCode) {
    this.contractAccountCode = contractAccountCode;
  }

  @Override
  public void encode(ByteBuf byteBuf) {
    writeFixedString(byteBuf, this.contractAccountCode, 6);
  }

  @Override
  public void decode(ByteBuf byteBuf) {
    this.contractAccountCode = readFixedString(byteBuf, 6);
  }

  @Override
  public int hashCode() {
    return Objects.hash(contractAccountCode);
  }

  @Override
  public boolean equals(Object obj) {
    if (this == obj) {
      return true;
    }
    if (null == obj || getClass() != obj.getClass()) {
      return false;
    }
    Extend201602 orther_ = (Extend201602) obj;
    return Objects.equals(contractAccountCode, orther_.contractAccountCode);
  }

  @Override
  public String toString() {
    return ""Extend201602 ["" + ""contractAccountCode="" + this.contractAccountCode + ""]"";
  }
}
".

(* szse-bin/src/main/java/com/finproto/szse/bin/messages/Extend201702.java *)
Definition text_szse_Extend201702 : text :=
"// Code generated by fin-protoc. DO NOT EDIT.
package com.finproto.szse.bin.messages;

import com.finproto.codec.BinaryCodec;
import io.netty.buffer.ByteBuf;
import java.util.Objects;

public class Extend201702 implements BinaryCodec {
  private long cashOrderQty;

  public long getCashOrderQty() {
    return this.cashOrderQty;
  }

  public void setCashOrderQty(long cashOrderQty) {
    this.cashOrderQty = cashOrderQty;
  }

  @Override
  public void encode(ByteBuf byteBuf) {
    byteBuf.writeLong(this.cashOrderQty);
  }

  @Override
  public void decode(ByteBuf byteBuf) {
    this.cashOrderQty = byteBuf.readLong();
  }

  @Override
  public int hashCode() {
    return Objects.hash(cashOrderQty);
  }

  @Override
  public boolean equals(Object obj) {
    if (this == obj) {
      return true;
    }
    if (null == obj || getClass() != obj.getClass()) {
      return false;
    }
    Extend201702 orther_ = (Extend201702) obj;
    return Objects.equals(cashOrderQty, orther_.cashOrderQty);
  }

  @Override
  public String toString() {
    return ""Extend201702 ["" + ""cashOrderQty="" + this.cashOrderQty + ""]"";
  }
}
".

(* szse-bin/src/main/java/com/finproto/szse/bin/messages/Extend201802.java *)
Definition text_szse_Extend201802 : text :=
"// Code generated by fin-protoc. DO NOT EDIT.
package com.finproto.szse.bin.messages;

import com.finproto.codec.BinaryCodec;
import io.netty.buffer.ByteBuf;
import java.util.Objects;

public class Extend201802 implements BinaryCodec {
  private String tenderer;

  public String getTenderer() {
    return this.tenderer;
  }

  public void setTenderer(String tenderer) {
    this.tenderer = tenderer;
  }

  @Override
  public void encode(ByteBuf byteBuf) {
    writeFixedString(byteBuf, this.tenderer, 6);
  }

  @Override
  public void decode(ByteBuf byteBuf) {
    this.tenderer = readFixedString(byteBuf, 6);
  }

  @Override
  public int hashCode() {
    return Objects.hash(tenderer);
  }

  @Override
  public boolean equals(Object obj) {
    if (this == obj) {
      return true;
    }
    if (null == obj || getClass() != obj.getClass()) {
      return false;
    }
    Extend201802 orther_ = (Extend201802) obj;
    return Objects.equals(tenderer, orther_.tenderer);
  }

  @Override
  public String toString() {
    return ""Extend201802 ["" + ""tenderer="" + this.tenderer + ""]"";
  }
}
".

(* szse-bin/src/main/java/com/finproto/szse/bin/messages/Extend202702.java *)
Definition text_szse_Extend202702 : text :=
"// Code generated by fin-protoc. DO NOT EDIT.
package com.finproto.szse.bin.messages;

import com.finproto.codec.BinaryCodec;
import io.netty.buffer.ByteBuf;
import java.util.Objects;

public class Extend202702 implements BinaryCodec {
  private String disposalPbu;
  private String disposalAccountId;

  public String getDisposalPbu() {
    return this.disposalPbu;
  }

  public void setDisposalPbu(String disposalPbu) {
    this.disposalPbu = disposalPbu;
  }

  public String getDisposalAccountId() {
    return this.disposalAccountId;
  }

  public void setDisposalAccountId(String disposalAccountId) {
    this.disposalAccountId = disposalAccountId;
  }

  @Override
  public void encode(ByteBuf byteBuf) {
    writeFixedString(byteBuf, this.disposalPbu, 6);
    writeFixedString(byteBuf, this.disposalAccountId, 12);
  }

  @Override
  public void decode(ByteBuf byteBuf) {
    this.disposalPbu = readFixedString(byteBuf, 6);
    this.disposalAccountId = readFixedString(byteBuf, 12);
  }

  @Override
  public int hashCode() {
    return Objects.hash(disposalPbu, disposalAccountId);
  }

  @Override
  public boolean equals(Object obj) {
    if (this == obj) {
      return true;
    }
    if (null == obj || getClass() != obj.getClass()) {
      return false;
    }
    Extend202702 orther_ = (Extend202702) obj;
    return Objects.equals(disposalPbu, orther_.disposalPbu)
        && Objects.equals(disposalAccountId, orther_.disposalAccountId);
  }

  @Override
  public String toString() {
    return ""Extend202702 [""
        + ""disposalPbu=""
        + this.disposalPbu
        + "", disposalAccountId=""
        + this.disposalAccountId
        + ""]"";
  }
}
".

(* szse-bin/src/main/java/com/finproto/szse/bin/messages/Extend202802.java *)
Definition text_szse_Extend202802 : text :=
"// Code generated by fin-protoc. DO NOT EDIT.
package com.finproto.szse.bin.messages;

import com.finproto.codec.BinaryCodec;
import io.netty.buffer.ByteBuf;
import java.util.Objects;

public class Extend202802 implements BinaryCodec {
  private String lenderPbu;
  private String lenderAccountId;

  public String getLenderPbu() {
    return this.lenderPbu;
  }

  public void setLenderPbu(String lenderPbu) {
    this.lenderPbu = lenderPbu;
  }

  public String getLenderAccountId() {
    return this.lenderAccountId;
  }

  public void setLenderAccountId(String lenderAccountId) {
    this.lenderAccountId = lenderAccountId;
  }

  @Override
  public void encode(ByteBuf byteBuf) {
    writeFixedString(byteBuf, this.lenderPbu, 6);
    writeFixedString(byteBuf, this.lenderAccountId, 12);
  }

  @Override
  public void decode(ByteBuf byteBuf) {
    this.lenderPbu = readFixedString(byteBuf, 6);
    this.lenderAccountId = readFixedString(byteBuf, 12);
  }

  @Override
  public int hashCode() {
    return Objects.hash(lenderPbu, lenderAccountId);
  }

  @Override
  public boolean equals(Object obj) {
    if (this == obj) {
      return true;
    }
    if (null == obj || getClass() != obj.getClass()) {
      return false;
    }
    Extend202802 orther_ = (Extend202802) obj;
    return Objects.equals(lenderPbu, orther_.lenderPbu)
        && Objects.equals(lenderAccountId, orther_.lenderAccountId);
  }

  @Override
  public String toString() {
    return ""Extend202802 [""
        + ""lenderPbu=""
        + this.lenderPbu
        + "", lenderAccountId=""
        + this.lenderAccountId
        + ""]"";
  }
}
".

(* szse-bin/src/main/java/com/finproto/szse/bin/messages/Extend202902.java *)
Definition text_szse_Extend202902 : text :=
"// Code generated by fin-protoc. DO NOT EDIT.
package com.finproto.szse.bin.messages;

import com.finproto.codec.BinaryCodec;
import io.netty.buffer.ByteBuf;
import java.util.Objects;

public class Extend202902 implements BinaryCodec {
  private String deductionPbu;
  private String deductionAccountId;

  public String getDeductionPbu() {
    return this.deductionPbu;
  }

  public void setDeductionPbu(String deductionPbu) {
    this.deductionPbu = deductionPbu;
  }

  public String getDeductionAccountId() {
    return this.deductionAccountId;
  }

  public void setDeductionAccountId(String deductionAccountId) {
    this.deductionAccountId = deductionAccountId;
  }

  @Override
  public void encode(ByteBuf byteBuf) {
    writeFixedString(byteBuf, this.deductionPbu, 6);
    writeFixedString(byteBuf, this.deductionAccountId, 12);
  }

  @Override
  public void decode(ByteBuf byteBuf) {
    this.deductionPbu = readFixedString(byteBuf, 6);
    this.deductionAccountId = readFixedString(byteBuf, 12);
  }

  @Override
  public int hashCode() {
    return Objects.hash(deductionPbu, deductionAccountId);
  }

  @Override
  public boolean equals(Object obj) {
    if (this == obj) {
      return true;
    }
    if (null == obj || getClass() != obj.getClass()) {
      return false;
    }
    Extend202902 orther_ = (Extend202902) obj;
    return Objects.equals(deductionPbu, orther_.deductionPbu)
        && Objects.equals(deductionAccountId, orther_.deductionAccountId);
  }

  @Override
  public String toString() {
    return ""Extend202902 [""
        + ""deductionPbu=""
        + this.deductionPbu
        + "", deductionAccountId=""
        + this.deductionAccountId
        + ""]"";
  }
}
".

(* szse-bin/src/main/java/com/finproto/szse/bin/messages/Extend203102.java *)
Definition text_szse_Extend203102 : text :=
"// Code generated by fin-protoc. DO NOT EDIT.
package com.finproto.szse.bin.messages;

import com.finproto.codec.BinaryCodec;
import io.netty.buffer.ByteBuf;
import java.util.Objects;

public class Extend203102 implements BinaryCodec {
  private String insufficientSecurityId;
  private int noSecurity;
  private String underlyingSecurityId;
  private String underlyingSecurityIdsource;
  private long deliveryQty;

  public String getInsufficientSecurityId() {
    return this.insufficientSecurityId;
  }

  public void setInsufficientSecurityId(String insufficientSecurityId) {
    this.insufficientSecurityId = insufficientSecurityId;
  }

  public int getNoSecurity() {
    return this.noSecurity;
  }

  public void setNoSecurity(int noSecurity) {
    this.noSecurity = noSecurity;
  }

  public String getUnderlyingSecurityId() {
    return this.underlyingSecurityId;
  }

  public void setUnderlyingSecurityId(String underlyingSecurityId) {
    this.underlyingSecurityId = underlyingSecurityId;
  }

  public String getUnderlyingSecurityIdsource() {
    return this.underlyingSecurityIdsource;
  }

  public void setUnderlyingSecurityIdsource(String underlyingSecurityIdsource) {
    this.underlyingSecurityIdsource = underlyingSecurityIdsource;
  }

  public long getDeliveryQty() {
    return this.deliveryQty;
  }

  public void setDeliveryQty(long deliveryQty) {
    this.deliveryQty = deliveryQty;
  }

  @Override
  public void encode(ByteBuf byteBuf) {
    writeFixedString(byteBuf, this.insufficientSecurityId, 8);
    byteBuf.writeInt(this.noSecurity);
    writeFixedString(byteBuf, this.underlyingSecurityId, 8);
    writeFixedString(byteBuf, this.underlyingSecurityIdsource, 4);
    byteBuf.writeLong(this.deliveryQty);
  }

  @Override
  public void decode(ByteBuf byteBuf) {
    this.insufficientSecurityId = readFixedString(byteBuf, 8);
    this.noSecurity = byteBuf.readInt();
    this.underlyingSecurityId = readFixedString(byteBuf, 8);
    this.underlyingSecurityIdsource = readFixedString(byteBuf, 4);
    this.deliveryQty = byteBuf.readLong();
  }

  @Override
  public int hashCode() {
    return Objects.hash(
        insufficientSecurityId,
        noSecurity,
        underlyingSecurityId,
        underlyingSecurityIdsource,
        deliveryQty);
  }

  @Override
  public boolean equals(Object obj) {
    if (this == obj) {
      return true;
    }
    if (null == obj || getClass() != obj.getClass()) {
      return false;
    }
    Extend203102 orther_ = (Extend203102) obj;
    return Objects.equals(insufficientSecurityId, orther_.insufficientSecurityId)
        && Objects.equals(noSecurity, orther_.noSecurity)
        && Objects.equals(underlyingSecurityId, orther_.underlyingSecurityId)
        && Objects.equals(underlyingSecurityIdsource, orther_.underlyingSecurityIdsource)
        && Objects.equals(deliveryQty, orther_.deliveryQty);
  }

  @Override
  public String toString() {
    return ""Extend203102 [""
        + ""insufficientSecurityId=""
        + this.insufficientSecurityId
        + "", noSecurity=""
        + this.noSecurity
        + "", underlyingSecurityId=""
        + this.underlyingSecurityId
        + "", underlyingSecurityIdsource=""
        + this.underlyingSecurityIdsource
        + "", deliveryQty=""
        + this.deliveryQty
        + ""]"";
  }
}
".

(* szse-bin/src/main/java/com/finproto/szse/bin/messages/Extend203502.java *)
Definition text_szse_Extend203502 : text :=
"// Code generated by fin-protoc. DO NOT EDIT.
package com.finproto.szse.bin.messages;

import com.finproto.codec.BinaryCodec;
import io.netty.buffer.ByteBuf;
import java.util.Objects;

public class Extend203502 implements BinaryCodec {
  private String contractAccountCode;

  public String getContractAccountCode() {
    return this.contractAccountCode;
  }

  public void setContractAccountCode(String contractAccountCode) {
    this.contractAccountCode = contractAccountCode;
  }

  @Override
  public void encode(ByteBuf byteBuf) {
    writeFixedString(byteBuf, this.contractAccountCode, 6);
  }

  @Override
  public void decode(ByteBuf byteBuf) {
    this.contractAccountCode = readFixedString(byteBuf, 6);
  }

  @Override
  public int hashCode() {
    return Objects.hash(contractAccountCode);
  }

  @Override
  public boolean equals(Object obj) {
    if (this == obj) {
      return true;
    }
    if (null == obj || getClass() != obj.getClass()) {
      return false;
    }
    Extend203502 orther_ = (Extend203502) obj;
    return Objects.equals(contractAccountCode, orther_.contractAccountCode);
  }

  @Override
  public String toString() {
    return ""Extend203502 ["" + ""contractAccountCode="" + this.contractAccountCode + ""]"";
  }
}
".

(* szse-bin/src/main/java/com/finproto/szse/bin/messages/Extend203702.java *)
Definition text_szse_Extend203702 : text :=
"// Code generated by fin-protoc. DO NOT EDIT.
package com.finproto.szse.bin.messages;

import com.finproto.codec.BinaryCodec;
import io.netty.buffer.ByteBuf;
import java.util.Objects;

public class Extend203702 implements BinaryCodec {
  private String cashMargin;

  public String getCashMargin() {
    return this.cashMargin;
  }

  public void setCashMargin(String cashMargin) {
    this.cashMargin = cashMargin;
  }

  @Override
  public void encode(ByteBuf byteBuf) {
    writeFixedString(byteBuf, this.cashMargin, 1);
  }

  @Override
  public void decode(ByteBuf byteBuf) {
    this.cashMargin = readFixedString(byteBuf, 1);
  }

  @Override
  public int hashCode() {
    return Objects.hash(cashMargin);
  }

  @Override
  public boolean equals(Object obj) {
    if (this == obj) {
      return true;
    }
    if (null == obj || getClass() != obj.getClass()) {
      return false;
    }
    Extend203702 orther_ = (Extend203702) obj;
    return Objects.equals(cashMargin, orther_.cashMargin);
  }

  @Override
  public String toString() {
    return ""Extend203702 ["" + ""cashMargin="" + this.cashMargin + ""]"";
  }
}
".

(* szse-bin/src/main/java/com/finproto/szse/bin/messages/Extend203715.java *)
Definition text_szse_Extend203715 : text :=
"// Code generated by fin-protoc. DO NOT EDIT.
package com.finproto.szse.bin.messages;

import com.finproto.codec.BinaryCodec;
import io.netty.buffer.ByteBuf;
import java.util.Objects;

public class Extend203715 implements BinaryCodec {
  private String cashMargin;

  public String getCashMargin() {
    return this.cashMargin;
  }

  public void setCashMargin(String cashMargin) {
    this.cashMargin = cashMargin;
  }

  @Override
  public void encode(ByteBuf byteBuf) {
    writeFixedString(byteBuf, this.cashMargin, 1);
  }

  @Override
  public void decode(ByteBuf byteBuf) {
    this.cashMargin = readFixedString(byteBuf, 1);
  }

  @Override
  public int hashCode() {
    return Objects.hash(cashMargin);
  }

  @Override
  public boolean equals(Object obj) {
    if (this == obj) {
      return true;
    }
    if (null == obj || getClass() != obj.getClass()) {
      return false;
    }
    Extend203715 orther_ = (Extend203715) obj;
    return Objects.equals(cashMargin, orther_.cashMargin);
  }

  @Override
  public String toString() {
    return ""Extend203715 ["" + ""cashMargin="" + this.cashMargin + ""]"";
  }
}
".

(* szse-bin/src/main/java/com/finproto/szse/bin/messages/Extend204102.java *)
Definition text_szse_Extend204102 : text :=
"// Code generated by fin-protoc. DO NOT EDIT.
package com.finproto.szse.bin.messages;

import com.finproto.codec.BinaryCodec;
import io.netty.buffer.ByteBuf;
import java.util.Objects;

public class Extend204102 implements BinaryCodec {
  private long stopPx;
  private long minQty;
  private short maxPriceLevels;
  private String timeInForce;
  private String cashMargin;

  public long getStopPx() {
    return this.stopPx;
  }

  public void setStopPx(long stopPx) {
    this.stopPx = stopPx;
  }

  public long getMinQty() {
    return this.minQty;
  }

  public void setMinQty(long minQty) {
    this.minQty = minQty;
  }

  public short getMaxPriceLevels() {
    return this.maxPriceLevels;
  }

  public void setMaxPriceLevels(short maxPriceLevels) {
    this.maxPriceLevels = maxPriceLevels;
  }

  public String getTimeInForce() {
    return this.timeInForce;
  }

  public void setTimeInForce(String timeInForce) {
    this.timeInForce = timeInForce;
  }

  public String getCashMargin() {
    return this.cashMargin;
  }

  public void setCashMargin(String cashMargin) {
    this.cashMargin = cashMargin;
  }

  @Override
  public void encode(ByteBuf byteBuf) {
    byteBuf.writeLong(this.stopPx);
    byteBuf.writeLong(this.minQty);
    byteBuf.writeShort(this.maxPriceLevels);
    writeFixedString(byteBuf, this.timeInForce, 1);
    writeFixedString(byteBuf, this.cashMargin, 1);
  }

  @Override
  public void decode(ByteBuf byteBuf) {
    this.stopPx = byteBuf.readLong();
    this.minQty = byteBuf.readLong();
    this.maxPriceLevels = byteBuf.readShort();
    this.timeInForce = readFixedString(byteBuf, 1);
    this.cashMargin = readFixedString(byteBuf, 1);
  }

  @Override
  public int hashCode() {
    return Objects.hash(stopPx, minQty, maxPriceLevels, timeInForce, cashMargin);
  }

  @Override
  public boolean equals(Object obj) {
    if (this == obj) {
      return true;
    }
    if (null == obj || getClass() != obj.getClass()) {
      return false;
    }
    Extend204102 orther_ = (Extend204102) obj;
    return Objects.equals(stopPx, orther_.stopPx)
        && Objects.equals(minQty, orther_.minQty)
        && Objects.equals(maxPriceLevels, orther_.maxPriceLevels)
        && Objects.equals(timeInForce, orther_.timeInForce)
        && Objects.equals(cashMargin, orther_.cashMargin);
  }

  @Override
  public String toString() {
    return ""Extend204102 [""
        + ""stopPx=""
        + this.stopPx
        + "", minQty=""
        + this.minQty
        + "", maxPriceLevels=""
        + this.maxPriceLevels
        + "", timeInForce=""
        + this.timeInForce
        + "", cashMargin=""
        + this.cashMargin
        + ""]"";
  }
}
".

(* szse-bin/src/main/java/com/finproto/szse/bin/messages/Extend204115.java *)
Definition text_szse_Extend204115 : text :=
"// Code generated by fin-protoc. DO NOT EDIT.
package com.finproto.szse.bin.messages;

import com.finproto.codec.BinaryCodec;
import io.netty.buffer.ByteBuf;
import java.util.Objects;

public class Extend204115 implements BinaryCodec {
  private String cashMargin;
  private short settlType;
  private byte settlPeriod;
  private String counterpartyMemberId;
  private String counterpartyInvestorType;
  private String counterpartyInvestorId;
  private String counterpartyInvestorName;
  private String counterpartyTraderCode;

  public String getCashMargin() {
    return this.cashMargin;
  }

  public void setCashMargin(String cashMargin) {
    this.cashMargin = cashMargin;
  }

  public short getSettlType() {
    return this.settlType;
  }

  public void setSettlType(short settlType) {
    this.settlType = settlType;
  }

  public byte getSettlPeriod() {
    return this.settlPeriod;
  }

  public void setSettlPeriod(byte settlPeriod) {
    this.settlPeriod = settlPeriod;
  }

  public String getCounterpartyMemberId() {
    return this.counterpartyMemberId;
  }

  public void setCounterpartyMemberId(String counterpartyMemberId) {
    this.counterpartyMemberId = counterpartyMemberId;
  }

  public String getCounterpartyInvestorType() {
    return this.counterpartyInvestorType;
  }

  public void setCounterpartyInvestorType(String counterpartyInvestorType) {
    this.counterpartyInvestorType = counterpartyInvestorType;
  }

  public String getCounterpartyInvestorId() {
    return this.counterpartyInvestorId;
  }

  public void setCounterpartyInvestorId(String counterpartyInvestorId) {
    this.counterpartyInvestorId = counterpartyInvestorId;
  }

  public String getCounterpartyInvestorName() {
    return this.counterpartyInvestorName;
  }

  public void setCounterpartyInvestorName(String counterpartyInvestorName) {
    this.counterpartyInvestorName = counterpartyInvestorName;
  }

  public String getCounterpartyTraderCode() {
    return this.counterpartyTraderCode;
  }

  public void setCounterpartyTraderCode(String counterpartyTraderCode) {
    this.counterpartyTraderCode = counterpartyTraderCode;
  }

  @Override
  public void encode(ByteBuf byteBuf) {
    writeFixedString(byteBuf, this.cashMargin, 1);
    byteBuf.writeShort(this.settlType);
    byteBuf.writeByte(this.settlPeriod);
    writeFixedString(byteBuf, this.counterpartyMemberId, 6);
    writeFixedString(byteBuf, this.counterpartyInvestorType, 2);
    writeFixedString(byteBuf, this.counterpartyInvestorId, 10);
    writeFixedString(byteBuf, this.counterpartyInvestorName, 120);
    writeFixedString(byteBuf, this.counterpartyTraderCode, 8);
  }

  @Override
  public void decode(ByteBuf byteBuf) {
    this.cashMargin = readFixedString(byteBuf, 1);
    this.settlType = byteBuf.readShort();
    this.settlPeriod = byteBuf.readByte();
    this.counterpartyMemberId = readFixedString(byteBuf, 6);
    this.counterpartyInvestorType = readFixedString(byteBuf, 2);
    this.counterpartyInvestorId = readFixedString(byteBuf, 10);
    this.counterpartyInvestorName = readFixedString(byteBuf, 120);
    this.counterpartyTraderCode = readFixedString(byteBuf, 8);
  }

  @Override
  public int hashCode() {
    return Objects.hash(
        cashMargin,
        settlType,
        settlPeriod,
        counterpartyMemberId,
        counterpartyInvestorType,
        counterpartyInvestorId,
        counterpartyInvestorName,
        counterpartyTraderCode);
  }

  @Override
  public boolean equals(Object obj) {
    if (this == obj) {
      return true;
    }
    if (null == obj || getClass() != obj.getClass()) {
      return false;
    }
    Extend204115 orther_ = (Extend204115) obj;
    return Objects.equals(cashMargin, orther_.cashMargin)
        && Objects.equals(settlType, orther_.settlType)
        && Objects.equals(settlPeriod, orther_.settlPeriod)
        && Objects.equals(counterpartyMemberId, orther_.counterpartyMemberId)
        && Objects.equals(counterpartyInvestorType, orther_.counterpartyInvestorType)
        && Objects.equals(counterpartyInvestorId, orther_.counterpartyInvestorId)
        && Objects.equals(counterpartyInvestorName, orther_.counterpartyInvestorName)
        && Objects.equals(counterpartyTraderCode, orther_.counterpartyTraderCode);
  }

  @Override
  public String toString() {
    return ""Extend204115 [""
        + ""cashMargin=""
        + this.cashMargin
        + "", settlType=""
        + this.settlType
        + "", settlPeriod=""
        + this.settlPeriod
        + "", counterpartyMemberId=""
        + this.counterpartyMemberId
        + "", counterpartyInvestorType=""
        + this.counterpartyInvestorType
        + "", counterpartyInvestorId=""
        + this.counterpartyInvestorId
        + "", counterpartyInvestorName=""
        + this.counterpartyInvestorName
        + "", counterpartyTraderCode=""
        + this.counterpartyTraderCode
        + ""]"";
  }
}
".

(* szse-bin/src/main/java/com/finproto/szse/bin/messages/Extend204129.java *)
Definition text_szse_Extend204129 : text :=
"// Code generated by fin-protoc. DO NOT EDIT.
package com.finproto.szse.bin.messages;

import com.finproto.codec.BinaryCodec;
import io.netty.buffer.ByteBuf;
import java.util.Objects;

public class Extend204129 implements BinaryCodec {
  private String memberId;
  private String investorType;
  private String investorId;
  private String investorName;
  private String traderCode;
  private String secondaryOrderId;
  private short bidTransType;
  private short bidExecInstType;
  private long lowLimitPrice;
  private long highLimitPrice;
  private long minQty;
  private int tradeDate;
  private short settlType;
  private byte settlPeriod;
  private byte preTradeAnonymity;
  private String cashMargin;
  private String memo;

  public String getMemberId() {
    return this.memberId;
  }

  public void setMemberId(String memberId) {
    this.memberId = memberId;
  }

  public String getInvestorType() {
    return this.investorType;
  }

  public void setInvestorType(String investorType) {
    this.investorType = investorType;
  }

  public String getInvestorId() {
    return this.investorId;
  }

  public void setInvestorId(String investorId) {
    this.investorId = investorId;
  }

  public String getInvestorName() {
    return this.investorName;
  }

  public void setInvestorName(String investorName) {
    this.investorName = investorName;
  }

  public String getTraderCode() {
    return this.traderCode;
  }

  public void setTraderCode(String traderCode) {
    this.traderCode = traderCode;
  }

  public String getSecondaryOrderId() {
    return this.secondaryOrderId;
  }

  public void setSecondaryOrderId(String secondaryOrderId) {
    this.secondaryOrderId = secondaryOrderId;
  }

  public short getBidTransType() {
    return this.bidTransType;
  }

  public void setBidTransType(short bidTransType) {
    this.bidTransType = bidTransType;
  }

  public short getBidExecInstType() {
    return this.bidExecInstType;
  }

  public void setBidExecInstType(short bidExecInstType) {
    this.bidExecInstType = bidExecInstType;
  }

  public long getLowLimitPrice() {
    return this.lowLimitPrice;
  }

  public void setLowLimitPrice(long lowLimitPrice) {
    this.lowLimitPrice = lowLimitPrice;
  }

  public long getHighLimitPrice() {
    return this.highLimitPrice;
  }

  public void setHighLimitPrice(long highLimitPrice) {
    this.highLimitPrice = highLimitPrice;
  }

  public long getMinQty() {
    return this.minQty;
  }

  public void setMinQty(long minQty) {
    this.minQty = minQty;
  }

  public int getTradeDate() {
    return this.tradeDate;
  }

  public void setTradeDate(int tradeDate) {
    this.tradeDate = tradeDate;
  }

  public short getSettlType() {
    return this.settlType;
  }

  public void setSettlType(short settlType) {
    this.settlType = settlType;
  }

  public byte getSettlPeriod() {
    return this.settlPeriod;
  }

  public void setSettlPeriod(byte settlPeriod) {
    this.settlPeriod = settlPeriod;
  }

  public byte getPreTradeAnonymity() {
    return this.preTradeAnonymity;
  }

  public void setPreTradeAnonymity(byte preTradeAnonymity) {
    this.preTradeAnonymity = preTradeAnonymity;
  }

  public String getCashMargin() {
    return this.cashMargin;
  }

  public void setCashMargin(String cashMargin) {
    this.cashMargin = cashMargin;
  }

  public String getMemo() {
    return this.memo;
  }

  public void setMemo(String memo) {
    this.memo = memo;
  }

  @Override
  public void encode(ByteBuf byteBuf) {
    writeFixedString(byteBuf, this.memberId, 6);
    writeFixedString(byteBuf, this.investorType, 2);
    writeFixedString(byteBuf, this.investorId, 10);
    writeFixedString(byteBuf, this.investorName, 120);
    writeFixedString(byteBuf, this.traderCode, 8);
    writeFixedString(byteBuf, this.secondaryOrderId, 16);
    byteBuf.writeShort(this.bidTransType);
    byteBuf.writeShort(this.bidExecInstType);
    byteBuf.writeLong(this.lowLimitPrice);
    byteBuf.writeLong(this.highLimitPrice);
    byteBuf.writeLong(this.minQty);
    byteBuf.writeInt(this.tradeDate);
    byteBuf.writeShort(this.settlType);
    byteBuf.writeByte(this.settlPeriod);
    byteBuf.writeByte(this.preTradeAnonymity);
    writeFixedString(byteBuf, this.cashMargin, 1);
    writeFixedString(byteBuf, this.memo, 160);
  }

  @Override
  public void decode(ByteBuf byteBuf) {
    this.memberId = readFixedString(byteBuf, 6);
    this.investorType = readFixedString(byteBuf, 2);
    this.investorId = readFixedString(byteBuf, 10);
    this.investorName = readFixedString(byteBuf, 120);
    this.traderCode = readFixedString(byteBuf, 8);
    this.secondaryOrderId = readFixedString(byteBuf, 16);
    this.bidTransType = byteBuf.readShort();
    this.bidExecInstType = byteBuf.readShort();
    this.lowLimitPrice = byteBuf.readLong();
    this.highLimitPrice = byteBuf.readLong();
    this.minQty = byteBuf.readLong();
    this.tradeDate = byteBuf.readInt();
    this.settlType = byteBuf.readShort();
    this.settlPeriod = byteBuf.readByte();
    this.preTradeAnonymity = byteBuf.readByte();
    this.cashMargin = readFixedString(byteBuf, 1);
    this.memo = readFixedString(byteBuf, 160);
  }

  @Override
  public int hashCode() {
    return Objects.hash(
        memberId,
        investorType,
        investorId,
        investorName,
        traderCode,
        secondaryOrderId,
        bidTransType,
        bidExecInstType,
        lowLimitPrice,
        highLimitPrice,
        minQty,
        tradeDate,
        settlType,
        settlPeriod,
        preTradeAnonymity,
        cashMargin,
        memo);
  }

  @Override
  public boolean equals(Object obj) {
    if (this == obj) {
      return true;
    }
    if (null == obj || getClass() != obj.getClass()) {
      return false;
    }
    Extend204129 orther_ = (Extend204129) obj;
    return Objects.equals(memberId, orther_.memberId)
        && Objects.equals(investorType, orther_.investorType)
        && Objects.equals(investorId, orther_.investorId)
        && Objects.equals(investorName, orther_.investorName)
        && Objects.equals(traderCode, orther_.traderCode)
        && Objects.equals(secondaryOrderId, orther_.secondaryOrderId)
        && Objects.equals(bidTransType, orther_.bidTransType)
        && Objects.equals(bidExecInstType, orther_.bidExecInstType)
        && Objects.equals(lowLimitPrice, orther_.lowLimitPrice)
        && Objects.equals(highLimitPrice, orther_.highLimitPrice)
        && Objects.equals(minQty, orther_.minQty)
        && Objects.equals(tradeDate, orther_.tradeDate)
        && Objects.equals(settlType, orther_.settlType)
        && Objects.equals(settlPeriod, orther_.settlPeriod)
        && Objects.equals(preTradeAnonymity, orther_.preTradeAnonymity)
        && Objects.equals(cashMargin, orther_.cashMargin)
        && Objects.equals(memo, orther_.memo);
  }

  @Override
  public String toString() {
    return ""Extend204129 [""
        + ""memberId=""
        + this.memberId
        + "", investorType=""
        + this.investorType
        + "", investorId=""
        + this.investorId
        + "", investorName=""
        + this.investorName
        + "", traderCode=""
        + this.traderCode
        + "", secondaryOrderId=""
        + this.secondaryOrderId
        + "", bidTransType=""
        + this.bidTransType
        + "", bidExecInstType=""
        + this.bidExecInstType
        + "", lowLimitPrice=""
        + this.lowLimitPrice
        + "", highLimitPrice=""
        + this.highLimitPrice
        + "", minQty=""
        + this.minQty
        + "", tradeDate=""
        + this.tradeDate
        + "", settlType=""
        + this.settlType
        + "", settlPeriod=""
        + this.settlPeriod
        + "", preTradeAnonymity=""
        + this.preTradeAnonymity
        + "", cashMargin=""
        + this.cashMargin
        + "", memo=""
        + this.memo
        + ""]"";
  }
}
".

(* szse-bin/src/main/java/com/finproto/szse/bin/messages/Extend204130.java *)
Definition text_szse_Extend204130 : text :=
"// Code generated by fin-protoc. DO NOT EDIT.
package com.finproto.szse.bin.messages;

import com.finproto.codec.BinaryCodec;
import io.netty.buffer.ByteBuf;
import java.util.Objects;

public class Extend204130 implements BinaryCodec {
  private String memberId;
  private String investorType;
  private String investorId;
  private String investorName;
  private String traderCode;
  private String counterpartyMemberId;
  private String counterpartyInvestorType;
  private String counterpartyInvestorId;
  private String counterpartyInvestorName;
  private String counterpartyTraderCode;
  private String secondaryOrderId;
  private short bidTransType;
  private short bidExecInstType;
  private short settlType;
  private byte settlPeriod;
  private String cashMargin;
  private String memo;

  public String getMemberId() {
    return this.memberId;
  }

  public void setMemberId(String memberId) {
    this.memberId = memberId;
  }

  public String getInvestorType() {
    return this.investorType;
  }

  public void setInvestorType(String investorType) {
    this.investorType = investorType;
  }

  public String getInvestorId() {
    return this.investorId;
  }

  public void setInvestorId(String investorId) {
    this.investorId = investorId;
  }

  public String getInvestorName() {
    return this.investorName;
  }

  public void setInvestorName(String investorName) {
    this.investorName = investorName;
  }

  public String getTraderCode() {
    return this.traderCode;
  }

  public void setTraderCode(String traderCode) {
    this.traderCode = traderCode;
  }

  public String getCounterpartyMemberId() {
    return this.counterpartyMemberId;
  }

  public void setCounterpartyMemberId(String counterpartyMemberId) {
    this.counterpartyMemberId = counterpartyMemberId;
  }

  public String getCounterpartyInvestorType() {
    return this.counterpartyInvestorType;
  }

  public void setCounterpartyInvestorType(String counterpartyInvestorType) {
    this.counterpartyInvestorType = counterpartyInvestorType;
  }

  public String getCounterpartyInvestorId() {
    return this.counterpartyInvestorId;
  }

  public void setCounterpartyInvestorId(String counterpartyInvestorId) {
    this.counterpartyInvestorId = counterpartyInvestorId;
  }

  public String getCounterpartyInvestorName() {
    return this.counterpartyInvestorName;
  }

  public void setCounterpartyInvestorName(String counterpartyInvestorName) {
    this.counterpartyInvestorName = counterpartyInvestorName;
  }

  public String getCounterpartyTraderCode() {
    return this.counterpartyTraderCode;
  }

  public void setCounterpartyTraderCode(String counterpartyTraderCode) {
    this.counterpartyTraderCode = counterpartyTraderCode;
  }

  public String getSecondaryOrderId() {
    return this.secondaryOrderId;
  }

  public void setSecondaryOrderId(String secondaryOrderId) {
    this.secondaryOrderId = secondaryOrderId;
  }

  public short getBidTransType() {
    return this.bidTransType;
  }

  public void setBidTransType(short bidTransType) {
    this.bidTransType = bidTransType;
  }

  public short getBidExecInstType() {
    return this.bidExecInstType;
  }

  public void setBidExecInstType(short bidExecInstType) {
    this.bidExecInstType = bidExecInstType;
  }

  public short getSettlType() {
    return this.settlType;
  }

  public void setSettlType(short settlType) {
    this.settlType = settlType;
  }

  public byte getSettlPeriod() {
    return this.settlPeriod;
  }

  public void setSettlPeriod(byte settlPeriod) {
    this.settlPeriod = settlPeriod;
  }

  public String getCashMargin() {
    return this.cashMargin;
  }

  public void setCashMargin(String cashMargin) {
    this.cashMargin = cashMargin;
  }

  public String getMemo() {
    return this.memo;
  }

  public void setMemo(String memo) {
    this.memo = memo;
  }

  @Override
  public void encode(ByteBuf byteBuf) {
    writeFixedString(byteBuf, this.memberId, 6);
    writeFixedString(byteBuf, this.investorType, 2);
    writeFixedString(byteBuf, this.investorId, 10);
    writeFixedString(byteBuf, this.investorName, 120);
    writeFixedString(byteBuf, this.traderCode, 8);
    writeFixedString(byteBuf, this.counterpartyMemberId, 6);
    writeFixedString(byteBuf, this.counterpartyInvestorType, 2);
    writeFixedString(byteBuf, this.counterpartyInvestorId, 10);
    writeFixedString(byteBuf, this.counterpartyInvestorName, 120);
    writeFixedString(byteBuf, this.counterpartyTraderCode, 8);
    writeFixedString(byteBuf, this.secondaryOrderId, 16);
    byteBuf.writeShort(this.bidTransType);
    byteBuf.writeShort(this.bidExecInstType);
    byteBuf.writeShort(this.settlType);
    byteBuf.writeByte(this.settlPeriod);
    writeFixedString(byteBuf, this.cashMargin, 1);
    writeFixedString(byteBuf, this.memo, 160);
  }

  @Override
  public void decode(ByteBuf byteBuf) {
    this.memberId = readFixedString(byteBuf, 6);
    this.investorType = readFixedString(byteBuf, 2);
    this.investorId = readFixedString(byteBuf, 10);
    this.investorName = readFixedString(byteBuf, 120);
    this.traderCode = readFixedString(byteBuf, 8);
    this.counterpartyMemberId = readFixedString(byteBuf, 6);
    this.counterpartyInvestorType = readFixedString(byteBuf, 2);
    this.counterpartyInvestorId = readFixedString(byteBuf, 10);
    this.counterpartyInvestorName = readFixedString(byteBuf, 120);
    this.counterpartyTraderCode = readFixedString(byteBuf, 8);
    this.secondaryOrderId = readFixedString(byteBuf, 16);
    this.bidTransType = byteBuf.readShort();
    this.bidExecInstType = byteBuf.readShort();
    this.settlType = byteBuf.readShort();
    this.settlPeriod = byteBuf.readByte();
    this.cashMargin = readFixedString(byteBuf, 1);
    this.memo = readFixedString(byteBuf, 160);
  }

  @Override
  public int hashCode() {
    return Objects.hash(
        memberId,
        investorType,
        investorId,
        investorName,
        traderCode,
        counterpartyMemberId,
        counterpartyInvestorType,
        counterpartyInvestorId,
        counterpartyInvestorName,
        counterpartyTraderCode,
        secondaryOrderId,
        bidTransType,
        bidExecInstType,
        settlType,
        settlPeriod,
        cashMargin,
        memo);
  }

  @Override
  public boolean equals(Object obj) {
    if (this == obj) {
      return true;
    }
    if (null == obj || getClass() != obj.getClass()) {
      return false;
    }
    Extend204130 orther_ = (Extend204130) obj;
    return Objects.equals(memberId, orther_.memberId)
        && Objects.equals(investorType, orther_.investorType)
        && Objects.equals(investorId, orther_.investorId)
        && Objects.equals(investorName, orther_.investorName)
        && Objects.equals(traderCode, orther_.traderCode)
        && Objects.equals(counterpartyMemberId, orther_.counterpartyMemberId)
        && Objects.equals(counterpartyInvestorType, orther_.counterpartyInvestorType)
        && Objects.equals(counterpartyInvestorId, orther_.counterpartyInvestorId)
        && Objects.equals(counterpartyInvestorName, orther_.counterpartyInvestorName)
        && Objects.equals(counterpartyTraderCode, orther_.counterpartyTraderCode)
        && Objects.equals(secondaryOrderId, orther_.secondaryOrderId)
        && Objects.equals(bidTransType, orther_.bidTransType)
        && Objects.equals(bidExecInstType, orther_.bidExecInstType)
        && Objects.equals(settlType, orther_.settlType)
        && Objects.equals(settlPeriod, orther_.settlPeriod)
        && Objects.equals(cashMargin, orther_.cashMargin)
        && Objects.equals(memo, orther_.memo);
  }

  @Override
  public String toString() {
    return ""Extend204130 [""
        + ""memberId=""
        + this.memberId
        + "", investorType=""
        + this.investorType
        + "", investorId=""
        + this.investorId
        + "", investorName=""
        + this.investorName
        + "", traderCode=""
        + this.traderCode
        + "", counterpartyMemberId=""
        + this.counterpartyMemberId
        + "", counterpartyInvestorType=""
        + this.counterpartyInvestorType
        + "", counterpartyInvestorId=""
        + this.counterpartyInvestorId
        + "", counterpartyInvestorName=""
        + this.counterpartyInvestorName
        + "", counterpartyTraderCode=""
        + this.counterpartyTraderCode
        + "", secondaryOrderId=""
        + this.secondaryOrderId
        + "", bidTransType=""
        + this.bidTransType
        + "", bidExecInstType=""
        + this.bidExecInstType
        + "", settlType=""
        + this.settlType
        + "", settlPeriod=""
        + this.settlPeriod
        + "", cashMargin=""
        + this.cashMargin
        + "", memo=""
        + this.memo
        + ""]"";
  }
}
".

(* szse-bin/src/main/java/com/finproto/szse/bin/messages/Extend204702.java *)
Definition text_szse_Extend204702 : text :=
"// Code generated by fin-protoc. DO NOT EDIT.
package com.finproto.szse.bin.messages;

import com.finproto.codec.BinaryCodec;
import io.netty.buffer.ByteBuf;
import java.util.Objects;

public class Extend204702 implements BinaryCodec {
  private String secondaryOrderId;

  public String getSecondaryOrderId() {
    return this.secondaryOrderId;
  }

  public void setSecondaryOrderId(String secondaryOrderId) {
    this.secondaryOrderId = secondaryOrderId;
  }

  @Override
  public void encode(ByteBuf byteBuf) {
    writeFixedString(byteBuf, this.secondaryOrderId, 16);
  }

  @Override
  public void decode(ByteBuf byteBuf) {
    this.secondaryOrderId = readFixedString(byteBuf, 16);
  }

  @Override
  public int hashCode() {
    return Objects.hash(secondaryOrderId);
  }

  @Override
  public boolean equals(Object obj) {
    if (this == obj) {
      return true;
    }
    if (null == obj || getClass() != obj.getClass()) {
      return false;
    }
    Extend204702 orther_ = (Extend204702) obj;
    return Objects.equals(secondaryOrderId, orther_.secondaryOrderId);
  }

  @Override
  public String toString() {
    return ""Extend204702 ["" + ""secondaryOrderId="" + this.secondaryOrderId + ""]"";
  }
}
".

(* szse-bin/src/main/java/com/finproto/szse/bin/messages/Extend204715.java *)
Definition text_szse_Extend204715 : text :=
"// Code generated by fin-protoc. DO NOT EDIT.
package com.finproto.szse.bin.messages;

import com.finproto.codec.BinaryCodec;
import io.netty.buffer.ByteBuf;
import java.util.Objects;

public class Extend204715 implements BinaryCodec {
  private short expirationDays;
  private byte expirationType;
  private int maturityDate;
  private String shareProperty;

  public short getExpirationDays() {
    return this.expirationDays;
  }

  public void setExpirationDays(short expirationDays) {
    this.expirationDays = expirationDays;
  }

  public byte getExpirationType() {
    return this.expirationType;
  }

  public void setExpirationType(byte expirationType) {
    this.expirationType = expirationType;
  }

  public int getMaturityDate() {
    return this.maturityDate;
  }

  public void setMaturityDate(int maturityDate) {
    this.maturityDate = maturityDate;
  }

  public String getShareProperty() {
    return this.shareProperty;
  }

  public void setShareProperty(String shareProperty) {
    this.shareProperty = shareProperty;
  }

  @Override
  public void encode(ByteBuf byteBuf) {
    byteBuf.writeShort(this.expirationDays);
    byteBuf.writeByte(this.expirationType);
    byteBuf.writeInt(this.maturityDate);
    writeFixedString(byteBuf, this.shareProperty, 2);
  }

  @Override
  public void decode(ByteBuf byteBuf) {
    this.expirationDays = byteBuf.readShort();
    this.expirationType = byteBuf.readByte();
    this.maturityDate = byteBuf.readInt();
    this.shareProperty = readFixedString(byteBuf, 2);
  }

  @Override
  public int hashCode() {
    return Objects.hash(expirationDays, expirationType, maturityDate, shareProperty);
  }

  @Override
  public boolean equals(Object obj) {
    if (this == obj) {
      return true;
    }
    if (null == obj || getClass() != obj.getClass()) {
      return false;
    }
    Extend204715 orther_ = (Extend204715) obj;
    return Objects.equals(expirationDays, orther_.expirationDays)
        && Objects.equals(expirationType, orther_.expirationType)
        && Objects.equals(maturityDate, orther_.maturityDate)
        && Objects.equals(shareProperty, orther_.shareProperty);
  }

  @Override
  public String toString() {
    return ""Extend204715 [""
        + ""expirationDays=""
        + this.expirationDays
        + "", expirationType=""
        + this.expirationType
        + "", maturityDate=""
        + this.maturityDate
        + "", shareProperty=""
        + this.shareProperty
        + ""]"";
  }
}
".

(* szse-bin/src/main/java/com/finproto/szse/bin/messages/Extend206302.java *)
Definition text_szse_Extend206302 : text :=
"// Code generated by fin-protoc. DO NOT EDIT.
package com.finproto.szse.bin.messages;

import com.finproto.codec.BinaryCodec;
import io.netty.buffer.ByteBuf;
import io.netty.util.internal.StringUtil;
import java.nio.charset.StandardCharsets;
import java.util.Objects;

public class Extend206302 implements BinaryCodec {
  private String rejectText;
  private long stopPx;
  private long minQty;
  private short maxPriceLevels;
  private String timeInForce;
  private String lotType;
  private int imcrejectTextLen;
  private String imcrejectText;

  public String getRejectText() {
    return this.rejectText;
  }

  public void setRejectText(String rejectText) {
    this.rejectText = rejectText;
  }

  public long getStopPx() {
    return this.stopPx;
  }

  public void setStopPx(long stopPx) {
    this.stopPx = stopPx;
  }

  public long getMinQty() {
    return this.minQty;
  }

  public void setMinQty(long minQty) {
    this.minQty = minQty;
  }

  public short getMaxPriceLevels() {
    return this.maxPriceLevels;
  }

  public void setMaxPriceLevels(short maxPriceLevels) {
    this.maxPriceLevels = maxPriceLevels;
  }

  public String getTimeInForce() {
    return this.timeInForce;
  }

  public void setTimeInForce(String timeInForce) {
    this.timeInForce = timeInForce;
  }

  public String getLotType() {
    return this.lotType;
  }

  public void setLotType(String lotType) {
    this.lotType = lotType;
  }

  public int getImcrejectTextLen() {
    return this.imcrejectTextLen;
  }

  public void setImcrejectTextLen(int imcrejectTextLen) {
    this.imcrejectTextLen = imcrejectTextLen;
  }

  public String getImcrejectText() {
    return this.imcrejectText;
  }

  public void setImcrejectText(String imcrejectText) {
    this.imcrejectText = imcrejectText;
  }

  @Override
  public void encode(ByteBuf byteBuf) {
    writeFixedString(byteBuf, this.rejectText, 16);
    byteBuf.writeLong(this.stopPx);
    byteBuf.writeLong(this.minQty);
    byteBuf.writeShort(this.maxPriceLevels);
    writeFixedString(byteBuf, this.timeInForce, 1);
    writeFixedString(byteBuf, this.lotType, 1);
    byteBuf.writeInt(this.imcrejectTextLen);
    if (StringUtil.isNullOrEmpty(this.imcrejectText)) {
      byteBuf.writeInt(0);
    } else {
      byte[] bytes = this.imcrejectText.getBytes(StandardCharsets.UTF_8);
      byteBuf.writeInt(bytes.length);
      byteBuf.writeBytes(bytes);
    }
  }

  @Override
  public void decode(ByteBuf byteBuf) {
    this.rejectText = readFixedString(byteBuf, 16);
    this.stopPx = byteBuf.readLong();
    this.minQty = byteBuf.readLong();
    this.maxPriceLevels = byteBuf.readShort();
    this.timeInForce = readFixedString(byteBuf, 1);
    this.lotType = readFixedString(byteBuf, 1);
    this.imcrejectTextLen = byteBuf.readInt();
    int imcrejectTextLen = byteBuf.readInt();
    if (imcrejectTextLen > 0) {
      this.imcrejectText =
          byteBuf.readCharSequence(imcrejectTextLen, StandardCharsets.UTF_8).toString();
    }
  }

  @Override
  public int hashCode() {
    return Objects.hash(
        rejectText,
        stopPx,
        minQty,
        maxPriceLevels,
        timeInForce,
        lotType,
        imcrejectTextLen,
        imcrejectText);
  }

  @Override
  public boolean equals(Object obj) {
    if (this == obj) {
      return true;
    }
    if (null == obj || getClass() != obj.getClass()) {
      return false;
    }
    Extend206302 orther_ = (Extend206302) obj;
    return Objects.equals(rejectText, orther_.rejectText)
        && Objects.equals(stopPx, orther_.stopPx)
        && Objects.equals(minQty, orther_.minQty)
        && Objects.equals(maxPriceLevels, orther_.maxPriceLevels)
        && Objects.equals(timeInForce, orther_.timeInForce)
        && Objects.equals(lotType, orther_.lotType)
        && Objects.equals(imcrejectTextLen, orther_.imcrejectTextLen)
        && Objects.equals(imcrejectText, orther_.imcrejectText);
  }

  @Override
  public String toString() {
    return ""Extend206302 [""
        + ""rejectText=""
        + this.rejectText
        + "", stopPx=""
        + this.stopPx
        + "", minQty=""
        + this.minQty
        + "", maxPriceLevels=""
        + this.maxPriceLevels
        + "", timeInForce=""
        + this.timeInForce
        + "", lotType=""
        + this.lotType
        + "", imcrejectTextLen=""
        + this.imcrejectTextLen
        + "", imcrejectText=""
        + this.imcrejectText
        + ""]"";
  }
}
".

(* szse-bin/src/main/java/com/finproto/szse/bin/messages/Extend206315.java *)
Definition text_szse_Extend206315 : text :=
"// Code generated by fin-protoc. DO NOT EDIT.
package com.finproto.szse.bin.messages;

import com.finproto.codec.BinaryCodec;
import io.netty.buffer.ByteBuf;
import java.util.Objects;

public class Extend206315 implements BinaryCodec {
  private String cashMargin;

  public String getCashMargin() {
    return this.cashMargin;
  }

  public void setCashMargin(String cashMargin) {
    this.cashMargin = cashMargin;
  }

  @Override
  public void encode(ByteBuf byteBuf) {
    writeFixedString(byteBuf, this.cashMargin, 1);
  }

  @Override
  public void decode(ByteBuf byteBuf) {
    this.cashMargin = readFixedString(byteBuf, 1);
  }

  @Override
  public int hashCode() {
    return Objects.hash(cashMargin);
  }

  @Override
  public boolean equals(Object obj) {
    if (this == obj) {
      return true;
    }
    if (null == obj || getClass() != obj.getClass()) {
      return false;
    }
    Extend206315 orther_ = (Extend206315) obj;
    return Objects.equals(cashMargin, orther_.cashMargin);
  }

  @Override
  public String toString() {
    return ""Extend206315 ["" + ""cashMargin="" + this.cashMargin + ""]"";
  }
}
".

(* szse-bin/src/main/java/com/finproto/szse/bin/messages/Heartbeat.java *)
Definition text_szse_Heartbeat : text :=
"// Code generated by fin-protoc. DO NOT EDIT.
package com.finproto.szse.bin.messages;

import com.finproto.codec.BinaryCodec;
import io.netty.buffer.ByteBuf;

public class Heartbeat implements BinaryCodec {

  @Override
  public void encode(ByteBuf byteBuf) {}

  @Override
  public void decode(ByteBuf byteBuf) {}

  @Override
  public int hashCode() {
    return this.hashCode();
  }

  @Override
  public boolean equals(Object obj) {
    if (this == obj) {
      return true;
    }
    if (null == obj || getClass() != obj.getClass()) {
      return false;
    }
    return true;
  }

  @Override
  public String toString() {
    return ""Heartbeat []"";
  }
}
".

(* szse-bin/src/main/java/com/finproto/szse/bin/messages/Logon.java *)
Definition text_szse_Logon : text :=
"// Code generated by fin-protoc. DO NOT EDIT.
package com.finproto.szse.bin.messages;

import com.finproto.codec.BinaryCodec;
import io.netty.buffer.ByteBuf;
import java.util.Objects;

public class Logon implements BinaryCodec {
  private String senderCompId;
  private String targetCompId;
  private int heartBtint;
  private String password;
  private String defaultApplVerId;

  public String getSenderCompId() {
    return this.senderCompId;
  }

  public void setSenderCompId(String senderCompId) {
    this.senderCompId = senderCompId;
  }

  public String getTargetCompId() {
    return this.targetCompId;
  }

  public void setTargetCompId(String targetCompId) {
    this.targetCompId = targetCompId;
  }

  public int getHeartBtint() {
    return this.heartBtint;
  }

  public void setHeartBtint(int heartBtint) {
    this.heartBtint = heartBtint;
  }

  public String getPassword() {
    return this.password;
  }

  public void setPassword(String password) {
    this.password = password;
  }

  public String getDefaultApplVerId() {
    return this.defaultApplVerId;
  }

  public void setDefaultApplVerId(String defaultApplVerId) {
    this.defaultApplVerId = defaultApplVerId;
  }

  @Override
  public void encode(ByteBuf byteBuf) {
    writeFixedString(byteBuf, this.senderCompId, 20);
    writeFixedString(byteBuf, this.targetCompId, 20);
    byteBuf.writeInt(this.heartBtint);
    writeFixedString(byteBuf, this.password, 16);
    writeFixedString(byteBuf, this.defaultApplVerId, 32);
  }

  @Override
  public void decode(ByteBuf byteBuf) {
    this.senderCompId = readFixedString(byteBuf, 20);
    this.targetCompId = readFixedString(byteBuf, 20);
    this.heartBtint = byteBuf.readInt();
    this.password = readFixedString(byteBuf, 16);
    this.defaultApplVerId = readFixedString(byteBuf, 32);
  }

  @Override
  public int hashCode() {
    return Objects.hash(senderCompId, targetCompId, heartBtint, password, defaultApplVerId);
  }

  @Override
  public boolean equals(Object obj) {
    if (this == obj) {
      return true;
    }
    if (null == obj || getClass() != obj.getClass()) {
      return false;
    }
    Logon orther_ = (Logon) obj;
    return Objects.equals(senderCompId, orther_.senderCompId)
        && Objects.equals(targetCompId, orther_.targetCompId)
        && Objects.equals(heartBtint, orther_.heartBtint)
        && Objects.equals(password, orther_.password)
        && Objects.equals(defaultApplVerId, orther_.defaultApplVerId);
  }

  @Override
  public String toString() {
    return ""Logon [""
        + ""senderCompId=""
        + this.senderCompId
        + "", targetCompId=""
        + this.targetCompId
        + "", heartBtint=""
        + this.heartBtint
        + "", password=""
        + this.password
        + "", defaultApplVerId=""
        + this.defaultApplVerId
        + ""]"";
  }
}
".

(* szse-bin/src/main/java/com/finproto/szse/bin/messages/Logout.java *)
Definition text_szse_Logout : text :=
"// Code generated by fin-protoc. DO NOT EDIT.
package com.finproto.szse.bin.messages;

import com.finproto.codec.BinaryCodec;
import io.netty.buffer.ByteBuf;
import java.util.Objects;

public class Logout implements BinaryCodec {
  private int sessionStatus;
  private String text;

  public int getSessionStatus() {
    return this.sessionStatus;
  }

  public void setSessionStatus(int sessionStatus) {
    this.sessionStatus = sessionStatus;
  }

  public String getText() {
    return this.text;
  }

  public void setText(String text) {
    this.text = text;
  }

  @Override
  public void encode(ByteBuf byteBuf) {
    byteBuf.writeInt(this.sessionStatus);
    writeFixedString(byteBuf, this.text, 200);
  }

  @Override
  public void decode(ByteBuf byteBuf) {
    this.sessionStatus = byteBuf.readInt();
    this.text = readFixedString(byteBuf, 200);
  }

  @Override
  public int hashCode() {
    return Objects.hash(sessionStatus, text);
  }

  @Override
  public boolean equals(Object obj) {
    if (this == obj) {
      return true;
    }
    if (null == obj || getClass() != obj.getClass()) {
      return false;
    }
    Logout orther_ = (Logout) obj;
    return Objects.equals(sessionStatus, orther_.sessionStatus)
        && Objects.equals(text, orther_.text);
  }

  @Override
  public String toString() {
    return ""Logout ["" + ""sessionStatus="" + this.sessionStatus + "", text="" + this.text + ""]"";
  }
}
".

(* szse-bin/src/main/java/com/finproto/szse/bin/messages/NewOrder.java *)
Definition text_szse_NewOrder : text :=
"// Code generated by fin-protoc. DO NOT EDIT.
package com.finproto.szse.bin.messages;

import com.finproto.codec.BinaryCodec;
import io.netty.buffer.ByteBuf;
import java.util.HashMap;
import java.util.Map;
import java.util.Objects;
import java.util.function.Supplier;

public class NewOrder implements BinaryCodec {
  private String applId;
  private String submittingPbuid;
  private String securityId;
  private String securityIdsource;
  private short ownerType;
  private String clearingFirm;
  private long transactTime;
  private String userInfo;
  private String clOrdId;
  private String accountId;
  private String branchId;
  private String orderRestrictions;
  private String side;
  private String ordType;
  private long orderQty;
  private long price;
  private BinaryCodec applExtend;

  public String getApplId() {
    return this.applId;
  }

  public void setApplId(String applId) {
    this.applId = applId;
  }

  public String getSubmittingPbuid() {
    return this.submittingPbuid;
  }

  public void setSubmittingPbuid(String submittingPbuid) {
    this.submittingPbuid = submittingPbuid;
  }

  public String getSecurityId() {
    return this.securityId;
  }

  public void setSecurityId(String securityId) {
    this.securityId = securityId;
  }

  public String getSecurityIdsource() {
    return this.securityIdsource;
  }

  public void setSecurityIdsource(String securityIdsource) {
    this.securityIdsource = securityIdsource;
  }

  public short getOwnerType() {
    return this.ownerType;
  }

  public void setOwnerType(short ownerType) {
    this.ownerType = ownerType;
  }

  public String getClearingFirm() {
    return this.clearingFirm;
  }

  public void setClearingFirm(String clearingFirm) {
    this.clearingFirm = clearingFirm;
  }

  public long getTransactTime() {
    return this.transactTime;
  }

  public void setTransactTime(long transactTime) {
    this.transactTime = transactTime;
  }

  public String getUserInfo() {
    return this.userInfo;
  }

  public void setUserInfo(String userInfo) {
    this.userInfo = userInfo;
  }

  public String getClOrdId() {
    return this.clOrdId;
  }

  public void setClOrdId(String clOrdId) {
    this.clOrdId = clOrdId;
  }

  public String getAccountId() {
    return this.accountId;
  }

  public void setAccountId(String accountId) {
    this.accountId = accountId;
  }

  public String getBranchId() {
    return this.branchId;
  }

  public void setBranchId(String branchId) {
    this.branchId = branchId;
  }

  public String getOrderRestrictions() {
    return this.orderRestrictions;
  }

  public void setOrderRestrictions(String orderRestrictions) {
    this.orderRestrictions = orderRestrictions;
  }

  public String getSide() {
    return this.side;
  }

  public void setSide(String side) {
    this.side = side;
  }

  public String getOrdType() {
    return this.ordType;
  }

  public void setOrdType(String ordType) {
    this.ordType = ordType;
  }

  public long getOrderQty() {
    return this.orderQty;
  }

  public void setOrderQty(long orderQty) {
    this.orderQty = orderQty;
  }

  public long getPrice() {
    return this.price;
  }

  public void setPrice(long price) {
    this.price = price;
  }

  public BinaryCodec getApplExtend() {
    return this.applExtend;
  }

  public void setApplExtend(BinaryCodec applExtend) {
    this.applExtend = applExtend;
  }

  @Override
  public void encode(ByteBuf byteBuf) {
    writeFixedString(byteBuf, this.applId, 3);
    writeFixedString(byteBuf, this.submittingPbuid, 6);
    writeFixedString(byteBuf, this.securityId, 8);
    writeFixedString(byteBuf, this.securityIdsource, 4);
    byteBuf.writeShort(this.ownerType);
    writeFixedString(byteBuf, this.clearingFirm, 2);
    byteBuf.writeLong(this.transactTime);
    writeFixedString(byteBuf, this.userInfo, 8);
    writeFixedString(byteBuf, this.clOrdId, 10);
    writeFixedString(byteBuf, this.accountId, 12);
    writeFixedString(byteBuf, this.branchId, 4);
    writeFixedString(byteBuf, this.orderRestrictions, 4);
    writeFixedString(byteBuf, this.side, 1);
    writeFixedString(byteBuf, this.ordType, 1);
    byteBuf.writeLong(this.orderQty);
    byteBuf.writeLong(this.price);
    if (null != this.applExtend) {
      this.applExtend.encode(byteBuf);
    }
  }

  @Override
  public void decode(ByteBuf byteBuf) {
    this.applId = readFixedString(byteBuf, 3);
    this.submittingPbuid = readFixedString(byteBuf, 6);
    this.securityId = readFixedString(byteBuf, 8);
    this.securityIdsource = readFixedString(byteBuf, 4);
    this.ownerType = byteBuf.readShort();
    this.clearingFirm = readFixedString(byteBuf, 2);
    this.transactTime = byteBuf.readLong();
    this.userInfo = readFixedString(byteBuf, 8);
    this.clOrdId = readFixedString(byteBuf, 10);
    this.accountId = readFixedString(byteBuf, 12);
    this.branchId = readFixedString(byteBuf, 4);
    this.orderRestrictions = readFixedString(byteBuf, 4);
    this.side = readFixedString(byteBuf, 1);
    this.ordType = readFixedString(byteBuf, 1);
    this.orderQty = byteBuf.readLong();
    this.price = byteBuf.readLong();
    this.applExtend = ApplExtendMessageFactory.getInstance().create(this.applId);
    this.applExtend.decode(byteBuf);
  }

  @Override
  public int hashCode() {
    return Objects.hash(
        applId,
        submittingPbuid,
        securityId,
        securityIdsource,
        ownerType,
        clearingFirm,
        transactTime,
        userInfo,
        clOrdId,
        accountId,
        branchId,
        orderRestrictions,
        side,
        ordType,
        orderQty,
        price,
        applExtend);
  }

  @Override
  public boolean equals(Object obj) {
    if (this == obj) {
      return true;
    }
    if (null == obj || getClass() != obj.getClass()) {
      return false;
    }
    NewOrder orther_ = (NewOrder) obj;
    return Objects.equals(applId, orther_.applId)
        && Objects.equals(submittingPbuid, orther_.submittingPbuid)
        && Objects.equals(securityId, orther_.securityId)
        && Objects.equals(securityIdsource, orther_.securityIdsource)
        && Objects.equals(ownerType, orther_.ownerType)
        && Objects.equals(clearingFirm, orther_.clearingFirm)
        && Objects.equals(transactTime, orther_.transactTime)
        && Objects.equals(userInfo, orther_.userInfo)
        && Objects.equals(clOrdId, orther_.clOrdId)
        && Objects.equals(accountId, orther_.accountId)
        && Objects.equals(branchId, orther_.branchId)
        && Objects.equals(orderRestrictions, orther_.orderRestrictions)
        && Objects.equals(side, orther_.side)
        && Objects.equals(ordType, orther_.ordType)
        && Objects.equals(orderQty, orther_.orderQty)
        && Objects.equals(price, orther_.price)
        && Objects.equals(applExtend, orther_.applExtend);
  }

  @Override
  public String toString() {
    return ""NewOrder [""
        + ""applId=""
        + this.applId
        + "", submittingPbuid=""
        + this.submittingPbuid
        + "", securityId=""
        + this.securityId
        + "", securityIdsource=""
        + this.securityIdsource
        + "", ownerType=""
        + this.ownerType
        + "", clearingFirm=""
        + this.clearingFirm
        + "", transactTime=""
        + this.transactTime
        + "", userInfo=""
        + this.userInfo
        + "", clOrdId=""
        + this.clOrdId
        + "", accountId=""
        + this.accountId
        + "", branchId=""
        + this.branchId
        + "", orderRestrictions=""
        + this.orderRestrictions
        + "", side=""
        + this.side
        + "", ordType=""
        + this.ordType
        + "", orderQty=""
        + this.orderQty
        + "", price=""
        + this.price
        + "", applExtend=""
        + this.applExtend
        + ""]"";
  }

  public static enum ApplExtendMessageFactory {
    INSTANCE;
    private final Map<String, Supplier<BinaryCodec>> applExtendMap = new HashMap<>();

    static {
      getInstance().register(""010"", Extend100101::new);
      getInstance().register(""020"", Extend100201::new);
      getInstance().register(""030"", Extend100301::new);
      getInstance().register(""051"", Extend100501::new);
      getInstance().register(""052"", Extend100501::new);
      getInstance().register(""060"", Extend100601::new);
      getInstance().register(""061"", Extend100601::new);
      getInstance().register(""070"", Extend100701::new);
      getInstance().register(""150"", Extend101501::new);
      getInstance().register(""151"", Extend101501::new);
      getInstance().register(""152"", Extend101501::new);
      getInstance().register(""160"", Extend101601::new);
      getInstance().register(""170"", Extend101701::new);
      getInstance().register(""180"", Extend101801::new);
      getInstance().register(""181"", Extend101801::new);
      getInstance().register(""270"", Extend102701::new);
      getInstance().register(""271"", Extend102701::new);
      getInstance().register(""280"", Extend102801::new);
      getInstance().register(""281"", Extend102801::new);
      getInstance().register(""290"", Extend102901::new);
      getInstance().register(""291"", Extend102901::new);
      getInstance().register(""630"", Extend106301::new);
      getInstance().register(""350"", Extend103501::new);
      getInstance().register(""351"", Extend103501::new);
      getInstance().register(""370"", Extend103701::new);
      getInstance().register(""410"", Extend104101::new);
      getInstance().register(""417"", Extend104128::new);
      getInstance().register(""470"", Extend104701::new);
    }

    public BinaryCodec create(String applId) {
      Supplier<BinaryCodec> supplier = applExtendMap.get(applId);
      if (null == supplier) {
        throw new IllegalArgumentException(""Unsupported ApplID:"" + applId);
      }
      return supplier.get();
    }

    public void register(String applId, Supplier<BinaryCodec> supplier) {
      applExtendMap.put(applId, supplier);
    }

    public boolean remove(String applId) {
      return null != applExtendMap.remove(applId);
    }

    public static ApplExtendMessageFactory getInstance() {
      return INSTANCE;
    }
  }
}
".

(* szse-bin/src/main/java/com/finproto/szse/bin/messages/OrderCancelRequest.java *)
Definition text_szse_OrderCancelRequest : text :=
"// Code generated by fin-protoc. DO NOT EDIT.
package com.finproto.szse.bin.messages;

import com.finproto.codec.BinaryCodec;
import io.netty.buffer.ByteBuf;
import java.util.Objects;

public class OrderCancelRequest implements BinaryCodec {
  private String applId;
  private String submittingPbuid;
  private String securityId;
  private String securityIdsource;
  private short ownerType;
  private String clearingFirm;
  private long transactTime;
  private String userInfo;
  private String clOrdId;
  private String origClOrdId;
  private String side;
  private String orderId;
  private long orderQty;

  public String getApplId() {
    return this.applId;
  }

  public void setApplId(String applId) {
    this.applId = applId;
  }

  public String getSubmittingPbuid() {
    return this.submittingPbuid;
  }

  public void setSubmittingPbuid(String submittingPbuid) {
    this.submittingPbuid = submittingPbuid;
  }

  public String getSecurityId() {
    return this.securityId;
  }

  public void setSecurityId(String securityId) {
    this.securityId = securityId;
  }

  public String getSecurityIdsource() {
    return this.securityIdsource;
  }

  public void setSecurityIdsource(String securityIdsource) {
    this.securityIdsource = securityIdsource;
  }

  public short getOwnerType() {
    return this.ownerType;
  }

  public void setOwnerType(short ownerType) {
    this.ownerType = ownerType;
  }

  public String getClearingFirm() {
    return this.clearingFirm;
  }

  public void setClearingFirm(String clearingFirm) {
    this.clearingFirm = clearingFirm;
  }

  public long getTransactTime() {
    return this.transactTime;
  }

  public void setTransactTime(long transactTime) {
    this.transactTime = transactTime;
  }

  public String getUserInfo() {
    return this.userInfo;
  }

  public void setUserInfo(String userInfo) {
    this.userInfo = userInfo;
  }

  public String getClOrdId() {
    return this.clOrdId;
  }

  public void setClOrdId(String clOrdId) {
    this.clOrdId = clOrdId;
  }

  public String getOrigClOrdId() {
    return this.origClOrdId;
  }

  public void setOrigClOrdId(String origClOrdId) {
    this.origClOrdId = origClOrdId;
  }

  public String getSide() {
    return this.side;
  }

  public void setSide(String side) {
    this.side = side;
  }

  public String getOrderId() {
    return this.orderId;
  }

  public void setOrderId(String orderId) {
    this.orderId = orderId;
  }

  public long getOrderQty() {
    return this.orderQty;
  }

  public void setOrderQty(long orderQty) {
    this.orderQty = orderQty;
  }

  @Override
  public void encode(ByteBuf byteBuf) {
    writeFixedString(byteBuf, this.applId, 3);
    writeFixedString(byteBuf, this.submittingPbuid, 6);
    writeFixedString(byteBuf, this.securityId, 8);
    writeFixedString(byteBuf, this.securityIdsource, 4);
    byteBuf.writeShort(this.ownerType);
    writeFixedString(byteBuf, this.clearingFirm, 2);
    byteBuf.writeLong(this.transactTime);
    writeFixedString(byteBuf, this.userInfo, 8);
    writeFixedString(byteBuf, this.clOrdId, 10);
    writeFixedString(byteBuf, this.origClOrdId, 10);
    writeFixedString(byteBuf, this.side, 1);
    writeFixedString(byteBuf, this.orderId, 16);
    byteBuf.writeLong(this.orderQty);
  }

  @Override
  public void decode(ByteBuf byteBuf) {
    this.applId = readFixedString(byteBuf, 3);
    this.submittingPbuid = readFixedString(byteBuf, 6);
    this.securityId = readFixedString(byteBuf, 8);
    this.securityIdsource = readFixedString(byteBuf, 4);
    this.ownerType = byteBuf.readShort();
    this.clearingFirm = readFixedString(byteBuf, 2);
    this.transactTime = byteBuf.readLong();
    this.userInfo = readFixedString(byteBuf, 8);
    this.clOrdId = readFixedString(byteBuf, 10);
    this.origClOrdId = readFixedString(byteBuf, 10);
    this.side = readFixedString(byteBuf, 1);
    this.orderId = readFixedString(byteBuf, 16);
    this.orderQty = byteBuf.readLong();
  }

  @Override
  public int hashCode() {
    return Objects.hash(
        applId,
        submittingPbuid,
        securityId,
        securityIdsource,
        ownerType,
        clearingFirm,
        transactTime,
        userInfo,
        clOrdId,
        origClOrdId,
        side,
        orderId,
        orderQty);
  }

  @Override
  public boolean equals(Object obj) {
    if (this == obj) {
      return true;
    }
    if (null == obj || getClass() != obj.getClass()) {
      return false;
    }
    OrderCancelRequest orther_ = (OrderCancelRequest) obj;
    return Objects.equals(applId, orther_.applId)
        && Objects.equals(submittingPbuid, orther_.submittingPbuid)
        && Objects.equals(securityId, orther_.securityId)
        && Objects.equals(securityIdsource, orther_.securityIdsource)
        && Objects.equals(ownerType, orther_.ownerType)
        && Objects.equals(clearingFirm, orther_.clearingFirm)
        && Objects.equals(transactTime, orther_.transactTime)
        && Objects.equals(userInfo, orther_.userInfo)
        && Objects.equals(clOrdId, orther_.clOrdId)
        && Objects.equals(origClOrdId, orther_.origClOrdId)
        && Objects.equals(side, orther_.side)
        && Objects.equals(orderId, orther_.orderId)
        && Objects.equals(orderQty, orther_.orderQty);
  }

  @Override
  public String toString() {
    return ""OrderCancelRequest [""
        + ""applId=""
        + this.applId
        + "", submittingPbuid=""
        + this.submittingPbuid
        + "", securityId=""
        + this.securityId
        + "", securityIdsource=""
        + this.securityIdsource
        + "", ownerType=""
        + this.ownerType
        + "", clearingFirm=""
        + this.clearingFirm
        + "", transactTime=""
        + this.transactTime
        + "", userInfo=""
        + this.userInfo
        + "", clOrdId=""
        + this.clOrdId
        + "", origClOrdId=""
        + this.origClOrdId
        + "", side=""
        + this.side
        + "", orderId=""
        + this.orderId
        + "", orderQty=""
        + this.orderQty
        + ""]"";
  }
}
".

(* szse-bin/src/main/java/com/finproto/szse/bin/messages/PartitionReport.java *)
Definition text_szse_PartitionReport : text :=
"// Code generated by fin-protoc. DO NOT EDIT.
package com.finproto.szse.bin.messages;

import com.finproto.codec.BinaryCodec;
import io.netty.buffer.ByteBuf;
import java.util.Objects;

public class PartitionReport implements BinaryCodec {
  private int partitionNo;
  private long reportIndex;

  public int getPartitionNo() {
    return this.partitionNo;
  }

  public void setPartitionNo(int partitionNo) {
    this.partitionNo = partitionNo;
  }

  public long getReportIndex() {
    return this.reportIndex;
  }

  public void setReportIndex(long reportIndex) {
    this.reportIndex = reportIndex;
  }

  @Override
  public void encode(ByteBuf byteBuf) {
    byteBuf.writeInt(this.partitionNo);
    byteBuf.writeLong(this.reportIndex);
  }

  @Override
  public void decode(ByteBuf byteBuf) {
    this.partitionNo = byteBuf.readInt();
    this.reportIndex = byteBuf.readLong();
  }

  @Override
  public int hashCode() {
    return Objects.hash(partitionNo, reportIndex);
  }

  @Override
  public boolean equals(Object obj) {
    if (this == obj) {
      return true;
    }
    if (null == obj || getClass() != obj.getClass()) {
      return false;
    }
    PartitionReport orther_ = (PartitionReport) obj;
    return Objects.equals(partitionNo, orther_.partitionNo)
        && Objects.equals(reportIndex, orther_.reportIndex);
  }

  @Override
  public String toString() {
    return ""PartitionReport [""
        + ""partitionNo=""
        + this.partitionNo
        + "", reportIndex=""
        + this.reportIndex
        + ""]"";
  }
}
".

(* szse-bin/src/main/java/com/finproto/szse/bin/messages/PlatformInfo.java *)
Definition text_szse_PlatformInfo : text :=
"// Code generated by fin-protoc. DO NOT EDIT.
package com.finproto.szse.bin.messages;

import com.finproto.codec.BinaryCodec;
import io.netty.buffer.ByteBuf;
import java.util.ArrayList;
import java.util.List;
import java.util.Objects;

public class PlatformInfo implements BinaryCodec {
  private short platformId;
  private List<PlatformPartition> platformPartition;

  public short getPlatformId() {
    return this.platformId;
  }

  public void setPlatformId(short platformId) {
    this.platformId = platformId;
  }

  public List<PlatformPartition> getPlatformPartition() {
    return this.platformPartition;
  }

  public void setPlatformPartition(List<PlatformPartition> platformPartition) {
    this.platformPartition = platformPartition;
  }

  @Override
  public void encode(ByteBuf byteBuf) {
    byteBuf.writeShort(this.platformId);
    if (null == this.platformPartition || this.platformPartition.size() == 0) {
      byteBuf.writeInt(0);
    } else {
      byteBuf.writeInt((int) this.platformPartition.size());
      for (int i = 0; i < this.platformPartition.size(); i++) {
        this.platformPartition.get(i).encode(byteBuf);
      }
    }
  }

  @Override
  public void decode(ByteBuf byteBuf) {
    this.platformId = byteBuf.readShort();
    int platformPartitionSize = byteBuf.readInt();
    if (platformPartitionSize > 0) {
      this.platformPartition = new ArrayList<>();
      for (int i = 0; i < platformPartitionSize; i++) {
        PlatformPartition platformPartition_ = new PlatformPartition();
        platformPartition_.decode(byteBuf);
        this.platformPartition.add(platformPartition_);
      }
    }
  }

  @Override
  public int hashCode() {
    return Objects.hash(platformId, platformPartition);
  }

  @Override
  public boolean equals(Object obj) {
    if (this == obj) {
      return true;
    }
    if (null == obj || getClass() != obj.getClass()) {
      return false;
    }
    PlatformInfo orther_ = (PlatformInfo) obj;
    return Objects.equals(platformId, orther_.platformId)
        && Objects.equals(platformPartition, orther_.platformPartition);
  }

  @Override
  public String toString() {
    return ""PlatformInfo [""
        + ""platformId=""
        + this.platformId
        + "", platformPartition=""
        + this.platformPartition
        + ""]"";
  }
}
".

(* szse-bin/src/main/java/com/finproto/szse/bin/messages/PlatformPartition.java *)
Definition text_szse_PlatformPartition : text :=
"// Code generated by fin-protoc. DO NOT EDIT.
package com.finproto.szse.bin.messages;

import com.finproto.codec.BinaryCodec;
import io.netty.buffer.ByteBuf;
import java.util.Objects;

public class PlatformPartition implements BinaryCodec {
  private int partitionNo;

  public int getPartitionNo() {
    return this.partitionNo;
  }

  public void setPartitionNo(int partitionNo) {
    this.partitionNo = partitionNo;
  }

  @Override
  public void encode(ByteBuf byteBuf) {
    byteBuf.writeInt(this.partitionNo);
  }

  @Override
  public void decode(ByteBuf byteBuf) {
    this.partitionNo = byteBuf.readInt();
  }

  @Override
  public int hashCode() {
    return Objects.hash(partitionNo);
  }

  @Override
  public boolean equals(Object obj) {
    if (this == obj) {
      return true;
    }
    if (null == obj || getClass() != obj.getClass()) {
      return false;
    }
    PlatformPartition orther_ = (PlatformPartition) obj;
    return Objects.equals(partitionNo, orther_.partitionNo);
  }

  @Override
  public String toString() {
    return ""PlatformPartition ["" + ""partitionNo="" + this.partitionNo + ""]"";
  }
}
".

(* szse-bin/src/main/java/com/finproto/szse/bin/messages/PlatformStateInfo.java *)
Definition text_szse_PlatformStateInfo : text :=
"// Code generated by fin-protoc. DO NOT EDIT.
package com.finproto.szse.bin.messages;

import com.finproto.codec.BinaryCodec;
import io.netty.buffer.ByteBuf;
import java.util.Objects;

public class PlatformStateInfo implements BinaryCodec {
  private short platformId;
  private short platformState;

  public short getPlatformId() {
    return this.platformId;
  }

  public void setPlatformId(short platformId) {
    this.platformId = platformId;
  }

  public short getPlatformState() {
    return this.platformState;
  }

  public void setPlatformState(short platformState) {
    this.platformState = platformState;
  }

  @Override
  public void encode(ByteBuf byteBuf) {
    byteBuf.writeShort(this.platformId);
    byteBuf.writeShort(this.platformState);
  }

  @Override
  public void decode(ByteBuf byteBuf) {
    this.platformId = byteBuf.readShort();
    this.platformState = byteBuf.readShort();
  }

  @Override
  public int hashCode() {
    return Objects.hash(platformId, platformState);
  }

  @Override
  public boolean equals(Object obj) {
    if (this == obj) {
      return true;
    }
    if (null == obj || getClass() != obj.getClass()) {
      return false;
    }
    PlatformStateInfo orther_ = (PlatformStateInfo) obj;
    return Objects.equals(platformId, orther_.platformId)
        && Objects.equals(platformState, orther_.platformState);
  }

  @Override
  public String toString() {
    return ""PlatformStateInfo [""
        + ""platformId=""
        + this.platformId
        + "", platformState=""
        + this.platformState
        + ""]"";
  }
}
".

(* szse-bin/src/main/java/com/finproto/szse/bin/messages/ReportFinished.java *)
Definition text_szse_ReportFinished : text :=
"// Code generated by fin-protoc. DO NOT EDIT.
package com.finproto.szse.bin.messages;

import com.finproto.codec.BinaryCodec;
import io.netty.buffer.ByteBuf;
import java.util.Objects;

public class ReportFinished implements BinaryCodec {
  private int partitionNo;
  private long reportIndex;
  private short platformId;

  public int getPartitionNo() {
    return this.partitionNo;
  }

  public void setPartitionNo(int partitionNo) {
    this.partitionNo = partitionNo;
  }

  public long getReportIndex() {
    return this.reportIndex;
  }

  public void setReportIndex(long reportIndex) {
    this.reportIndex = reportIndex;
  }

  public short getPlatformId() {
    return this.platformId;
  }

  public void setPlatformId(short platformId) {
    this.platformId = platformId;
  }

  @Override
  public void encode(ByteBuf byteBuf) {
    byteBuf.writeInt(this.partitionNo);
    byteBuf.writeLong(this.reportIndex);
    byteBuf.writeShort(this.platformId);
  }

  @Override
  public void decode(ByteBuf byteBuf) {
    this.partitionNo = byteBuf.readInt();
    this.reportIndex = byteBuf.readLong();
    this.platformId = byteBuf.readShort();
  }

  @Override
  public int hashCode() {
    return Objects.hash(partitionNo, reportIndex, platformId);
  }

  @Override
  public boolean equals(Object obj) {
    if (this == obj) {
      return true;
    }
    if (null == obj || getClass() != obj.getClass()) {
      return false;
    }
    ReportFinished orther_ = (ReportFinished) obj;
    return Objects.equals(partitionNo, orther_.partitionNo)
        && Objects.equals(reportIndex, orther_.reportIndex)
        && Objects.equals(platformId, orther_.platformId);
  }

  @Override
  public String toString() {
    return ""ReportFinished [""
        + ""partitionNo=""
        + this.partitionNo
        + "", reportIndex=""
        + this.reportIndex
        + "", platformId=""
        + this.platformId
        + ""]"";
  }
}
".

(* szse-bin/src/main/java/com/finproto/szse/bin/messages/ReportSynchronization.java *)
Definition text_szse_ReportSynchronization : text :=
"// Code generated by fin-protoc. DO NOT EDIT.
package com.finproto.szse.bin.messages;

import com.finproto.codec.BinaryCodec;
import io.netty.buffer.ByteBuf;
import java.util.ArrayList;
import java.util.List;
import java.util.Objects;

public class ReportSynchronization implements BinaryCodec {
  private List<PartitionReport> partitionReport;

  public List<PartitionReport> getPartitionReport() {
    return this.partitionReport;
  }

  public void setPartitionReport(List<PartitionReport> partitionReport) {
    this.partitionReport = partitionReport;
  }

  @Override
  public void encode(ByteBuf byteBuf) {
    if (null == this.partitionReport || this.partitionReport.size() == 0) {
      byteBuf.writeInt(0);
    } else {
      byteBuf.writeInt((int) this.partitionReport.size());
      for (int i = 0; i < this.partitionReport.size(); i++) {
        this.partitionReport.get(i).encode(byteBuf);
      }
    }
  }

  @Override
  public void decode(ByteBuf byteBuf) {
    int partitionReportSize = byteBuf.readInt();
    if (partitionReportSize > 0) {
      this.partitionReport = new ArrayList<>();
      for (int i = 0; i < partitionReportSize; i++) {
        PartitionReport partitionReport_ = new PartitionReport();
        partitionReport_.decode(byteBuf);
        this.partitionReport.add(partitionReport_);
      }
    }
  }

  @Override
  public int hashCode() {
    return Objects.hash(partitionReport);
  }

  @Override
  public boolean equals(Object obj) {
    if (this == obj) {
      return true;
    }
    if (null == obj || getClass() != obj.getClass()) {
      return false;
    }
    ReportSynchronization orther_ = (ReportSynchronization) obj;
    return Objects.equals(partitionReport, orther_.partitionReport);
  }

  @Override
  public String toString() {
    return ""ReportSynchronization ["" + ""partitionReport="" + this.partitionReport + ""]"";
  }
}
".

(* szse-bin/src/main/java/com/finproto/szse/bin/messages/SzseBinary.java *)
Definition text_szse_SzseBinary : text :=
"// Code generated by fin-protoc. DO NOT EDIT.
package com.finproto.szse.bin.messages;

import com.finproto.codec.BinaryCodec;
import com.finproto.codec.ChecksumService;
import com.finproto.codec.ChecksumServiceFactory;
import io.netty.buffer.ByteBuf;
import java.util.HashMap;
import java.util.Map;
import java.util.Objects;
import java.util.function.Supplier;

public class SzseBinary implements BinaryCodec {
  private int msgType;
  private int bodyLength;
  private BinaryCodec body;
  private int checksum;

  public int getMsgType() {
    return this.msgType;
  }

  public void setMsgType(int msgType) {
    this.msgType = msgType;
  }

  public int getBodyLength() {
    return this.bodyLength;
  }

  public void setBodyLength(int bodyLength) {
    this.bodyLength = bodyLength;
  }

  public BinaryCodec getBody() {
    return this.body;
  }

  public void setBody(BinaryCodec body) {
    this.body = body;
  }

  public int getChecksum() {
    return this.checksum;
  }

  public void setChecksum(int checksum) {
    this.checksum = checksum;
  }

  @Override
  public void encode(ByteBuf byteBuf) {
    byteBuf.writeInt(this.msgType);
    int bodyLengthPos = byteBuf.writerIndex();
    byteBuf.writeInt(0);

    int bodyStart = byteBuf.writerIndex();
    if (this.body != null) {
      this.body.encode(byteBuf);
    }
    int bodyEnd = byteBuf.writerIndex();
    this.bodyLength = (int) (bodyEnd - bodyStart);
    byteBuf.setInt(bodyLengthPos, this.bodyLength);
    ChecksumService<ByteBuf, Integer> checksumService =
        ChecksumServiceFactory.getInstance().getChecksumService(""SZSE_BIN"");
    if (checksumService != null) {
      this.checksum = (int) checksumService.calc(byteBuf);
    }
    byteBuf.writeInt(this.checksum);
  }

  @Override
  public void decode(ByteBuf byteBuf) {
    this.msgType = byteBuf.readInt();
    this.bodyLength = byteBuf.readInt();
    this.body = BodyMessageFactory.getInstance().create(this.msgType);
    this.body.decode(byteBuf);
    this.checksum = byteBuf.readInt();
  }

  @Override
  public int hashCode() {
    return Objects.hash(msgType, bodyLength, body, checksum);
  }

  @Override
  public boolean equals(Object obj) {
    if (this == obj) {
      return true;
    }
    if (null == obj || getClass() != obj.getClass()) {
      return false;
    }
    SzseBinary orther_ = (SzseBinary) obj;
    return Objects.equals(msgType, orther_.msgType)
        && Objects.equals(bodyLength, orther_.bodyLength)
        && Objects.equals(body, orther_.body)
        && Objects.equals(checksum, orther_.checksum);
  }

  @Override
  public String toString() {
    return ""SzseBinary [""
        + ""msgType=""
        + this.msgType
        + "", bodyLength=""
        + this.bodyLength
        + "", body=""
        + this.body
        + "", checksum=""
        + this.checksum
        + ""]"";
  }

  public static enum BodyMessageFactory {
    INSTANCE;
    private final Map<Integer, Supplier<BinaryCodec>> bodyMap = new HashMap<>();

    static {
      getInstance().register((int) 1, Logon::new);
      getInstance().register((int) 2, Logout::new);
      getInstance().register((int) 3, Heartbeat::new);
      getInstance().register((int) 4, BusinessReject::new);
      getInstance().register((int) 5, ReportSynchronization::new);
      getInstance().register((int) 6, PlatformStateInfo::new);
      getInstance().register((int) 7, ReportFinished::new);
      getInstance().register((int) 9, PlatformPartition::new);
      getInstance().register((int) 10, TradingSessionStatus::new);
      getInstance().register((int) 100101, NewOrder::new);
      getInstance().register((int) 100201, NewOrder::new);
      getInstance().register((int) 100301, NewOrder::new);
      getInstance().register((int) 100401, NewOrder::new);
      getInstance().register((int) 100501, NewOrder::new);
      getInstance().register((int) 100601, NewOrder::new);
      getInstance().register((int) 100701, NewOrder::new);
      getInstance().register((int) 101201, NewOrder::new);
      getInstance().register((int) 101301, NewOrder::new);
      getInstance().register((int) 101401, NewOrder::new);
      getInstance().register((int) 101501, NewOrder::new);
      getInstance().register((int) 101601, NewOrder::new);
      getInstance().register((int) 101701, NewOrder::new);
      getInstance().register((int) 101801, NewOrder::new);
      getInstance().register((int) 101901, NewOrder::new);
      getInstance().register((int) 102301, NewOrder::new);
      getInstance().register((int) 102701, NewOrder::new);
      getInstance().register((int) 102801, NewOrder::new);
      getInstance().register((int) 102901, NewOrder::new);
      getInstance().register((int) 103101, NewOrder::new);
      getInstance().register((int) 106301, NewOrder::new);
      getInstance().register((int) 103301, NewOrder::new);
      getInstance().register((int) 103501, NewOrder::new);
      getInstance().register((int) 103701, NewOrder::new);
      getInstance().register((int) 104101, NewOrder::new);
      getInstance().register((int) 104128, NewOrder::new);
      getInstance().register((int) 104701, NewOrder::new);
      getInstance().register((int) 200102, ExecutionConfirm::new);
      getInstance().register((int) 200202, ExecutionConfirm::new);
      getInstance().register((int) 200302, ExecutionConfirm::new);
      getInstance().register((int) 200402, ExecutionConfirm::new);
      getInstance().register((int) 200502, ExecutionConfirm::new);
      getInstance().register((int) 200602, ExecutionConfirm::new);
      getInstance().register((int) 200702, ExecutionConfirm::new);
      getInstance().register((int) 201202, ExecutionConfirm::new);
      getInstance().register((int) 201302, ExecutionConfirm::new);
      getInstance().register((int) 201402, ExecutionConfirm::new);
      getInstance().register((int) 201502, ExecutionConfirm::new);
      getInstance().register((int) 201602, ExecutionConfirm::new);
      getInstance().register((int) 201702, ExecutionConfirm::new);
      getInstance().register((int) 201802, ExecutionConfirm::new);
      getInstance().register((int) 201902, ExecutionConfirm::new);
      getInstance().register((int) 202202, ExecutionConfirm::new);
      getInstance().register((int) 202302, ExecutionConfirm::new);
      getInstance().register((int) 202702, ExecutionConfirm::new);
      getInstance().register((int) 202802, ExecutionConfirm::new);
      getInstance().register((int) 202902, ExecutionConfirm::new);
      getInstance().register((int) 203102, ExecutionConfirm::new);
      getInstance().register((int) 206302, ExecutionConfirm::new);
      getInstance().register((int) 203302, ExecutionConfirm::new);
      getInstance().register((int) 203502, ExecutionConfirm::new);
      getInstance().register((int) 203702, ExecutionConfirm::new);
      getInstance().register((int) 204102, ExecutionConfirm::new);
      getInstance().register((int) 204129, ExecutionConfirm::new);
      getInstance().register((int) 204702, ExecutionConfirm::new);
      getInstance().register((int) 200115, ExecutionReport::new);
      getInstance().register((int) 200215, ExecutionReport::new);
      getInstance().register((int) 200315, ExecutionReport::new);
      getInstance().register((int) 200415, ExecutionReport::new);
      getInstance().register((int) 200515, ExecutionReport::new);
      getInstance().register((int) 200615, ExecutionReport::new);
      getInstance().register((int) 200715, ExecutionReport::new);
      getInstance().register((int) 206315, ExecutionReport::new);
      getInstance().register((int) 203715, ExecutionReport::new);
      getInstance().register((int) 204115, ExecutionReport::new);
      getInstance().register((int) 204130, ExecutionReport::new);
      getInstance().register((int) 190007, OrderCancelRequest::new);
      getInstance().register((int) 290008, CancelReject::new);
    }

    public BinaryCodec create(Integer msgType) {
      Supplier<BinaryCodec> supplier = bodyMap.get(msgType);
      if (null == supplier) {
        throw new IllegalArgumentException(""Unsupported MsgType:"" + msgType);
      }
      return supplier.get();
    }

    public void register(Integer msgType, Supplier<BinaryCodec> supplier) {
      bodyMap.put(msgType, supplier);
    }

    public boolean remove(Integer msgType) {
      return null != bodyMap.remove(msgType);
    }

    public static BodyMessageFactory getInstance() {
      return INSTANCE;
    }
  }
}
".

(* szse-bin/src/main/java/com/finproto/szse/bin/messages/TradingSessionStatus.java *)
Definition text_szse_TradingSessionStatus : text :=
"// Code generated by fin-protoc. DO NOT EDIT.
package com.finproto.szse.bin.messages;

import com.finproto.codec.BinaryCodec;
import io.netty.buffer.ByteBuf;
import java.util.Objects;

public class TradingSessionStatus implements BinaryCodec {
  private String marketId;
  private String marketSegmentId;
  private String tradingSessionId;
  private String tradingSessionSubId;
  private short tradSesStatus;
  private long tradSesStartTime;
  private long tradSesEndTime;

  public String getMarketId() {
    return this.marketId;
  }

  public void setMarketId(String marketId) {
    this.marketId = marketId;
  }

  public String getMarketSegmentId() {
    return this.marketSegmentId;
  }

  public void setMarketSegmentId(String marketSegmentId) {
    this.marketSegmentId = marketSegmentId;
  }

  public String getTradingSessionId() {
    return this.tradingSessionId;
  }

  public void setTradingSessionId(String tradingSessionId) {
    this.tradingSessionId = tradingSessionId;
  }

  public String getTradingSessionSubId() {
    return this.tradingSessionSubId;
  }

  public void setTradingSessionSubId(String tradingSessionSubId) {
    this.tradingSessionSubId = tradingSessionSubId;
  }

  public short getTradSesStatus() {
    return this.tradSesStatus;
  }

  public void setTradSesStatus(short tradSesStatus) {
    this.tradSesStatus = tradSesStatus;
  }

  public long getTradSesStartTime() {
    return this.tradSesStartTime;
  }

  public void setTradSesStartTime(long tradSesStartTime) {
    this.tradSesStartTime = tradSesStartTime;
  }

  public long getTradSesEndTime() {
    return this.tradSesEndTime;
  }

  public void setTradSesEndTime(long tradSesEndTime) {
    this.tradSesEndTime = tradSesEndTime;
  }

  @Override
  public void encode(ByteBuf byteBuf) {
    writeFixedString(byteBuf, this.marketId, 8);
    writeFixedString(byteBuf, this.marketSegmentId, 8);
    writeFixedString(byteBuf, this.tradingSessionId, 4);
    writeFixedString(byteBuf, this.tradingSessionSubId, 4);
    byteBuf.writeShort(this.tradSesStatus);
    byteBuf.writeLong(this.tradSesStartTime);
    byteBuf.writeLong(this.tradSesEndTime);
  }

  @Override
  public void decode(ByteBuf byteBuf) {
    this.marketId = readFixedString(byteBuf, 8);
    this.marketSegmentId = readFixedString(byteBuf, 8);
    this.tradingSessionId = readFixedString(byteBuf, 4);
    this.tradingSessionSubId = readFixedString(byteBuf, 4);
    this.tradSesStatus = byteBuf.readShort();
    this.tradSesStartTime = byteBuf.readLong();
    this.tradSesEndTime = byteBuf.readLong();
  }

  @Override
  public int hashCode() {
    return Objects.hash(
        marketId,
        marketSegmentId,
        tradingSessionId,
        tradingSessionSubId,
        tradSesStatus,
        tradSesStartTime,
        tradSesEndTime);
  }

  @Override
  public boolean equals(Object obj) {
    if (this == obj) {
      return true;
    }
    if (null == obj || getClass() != obj.getClass()) {
      return false;
    }
    TradingSessionStatus orther_ = (TradingSessionStatus) obj;
    return Objects.equals(marketId, orther_.marketId)
        && Objects.equals(marketSegmentId, orther_.marketSegmentId)
        && Objects.equals(tradingSessionId, orther_.tradingSessionId)
        && Objects.equals(tradingSessionSubId, orther_.tradingSessionSubId)
        && Objects.equals(tradSesStatus, orther_.tradSesStatus)
        && Objects.equals(tradSesStartTime, orther_.tradSesStartTime)
        && Objects.equals(tradSesEndTime, orther_.tradSesEndTime);
  }

  @Override
  public String toString() {
    return ""TradingSessionStatus [""
        + ""marketId=""
        + this.marketId
        + "", marketSegmentId=""
        + this.marketSegmentId
        + "", tradingSessionId=""
        + this.tradingSessionId
        + "", tradingSessionSubId=""
        + this.tradingSessionSubId
        + "", tradSesStatus=""
        + this.tradSesStatus
        + "", tradSesStartTime=""
        + this.tradSesStartTime
        + "", tradSesEndTime=""
        + this.tradSesEndTime
        + ""]"";
  }
}
".

