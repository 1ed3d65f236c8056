(* GENERATED by tools/mksrc.py: the files of /repo/bjse-bin/src/main/java, verbatim. *)
From Verif.Java Require Import Text.
Open Scope text_scope.

(* bjse-bin/src/main/java/com/finproto/bjse/trade/messages/AllegeQuote.java *)
Definition text_bjse_AllegeQuote : text :=
"// Code generated by fin-protoc. DO NOT EDIT.
package com.finproto.bjse.trade.messages;

import com.finproto.codec.BinaryCodec;
import io.netty.buffer.ByteBuf;
import java.util.HashMap;
import java.util.Map;
import java.util.Objects;
import java.util.function.Supplier;

public class AllegeQuote implements BinaryCodec {
  private int partitionNo;
  private long reportIndex;
  private String applId;
  private String reportingPbuid;
  private String submittingPbuid;
  private String securityId;
  private String securityIdsource;
  private short ownerType;
  private String clearingFirm;
  private long transactTime;
  private String userInfo;
  private String orderId;
  private String execId;
  private String clOrdId;
  private String accountId;
  private String quoteReqId;
  private String quoteId;
  private String quoteRespId;
  private byte quoteType;
  private long bidPx;
  private long offerPx;
  private long bidSize;
  private long offerSize;
  private byte privateQuote;
  private long validUntilTime;
  private byte priceType;
  private String memo;
  private BinaryCodec applExtend;

  public int getPartitionNo() {
    return this.partitionNo;
  }

  public void setPartitionNo(int partitionNo) {
    this.partitionNo = partitionNo;
  }

  public long getReportIndex() {
    return this.reportIndex;
  }

  public void setReportIndex(long reportIndex) {
    this.reportIndex = reportIndex;
  }

  public String getApplId() {
    return this.applId;
  }

  public void setApplId(String applId) {
    this.applId = applId;
  }

  public String getReportingPbuid() {
    return this.reportingPbuid;
  }

  public void setReportingPbuid(String reportingPbuid) {
    this.reportingPbuid = reportingPbuid;
  }

  public String getSubmittingPbuid() {
    return this.submittingPbuid;
  }

  public void setSubmittingPbuid(String submittingPbuid) {
    this.submittingPbuid = submittingPbuid;
  }

  public String getSecurityId() {
    return this.securityId;
  }

  public void setSecurityId(String securityId) {
    this.securityId = securityId;
  }

  public String getSecurityIdsource() {
    return this.securityIdsource;
  }

  public void setSecurityIdsource(String securityIdsource) {
    this.securityIdsource = securityIdsource;
  }

  public short getOwnerType() {
    return this.ownerType;
  }

  public void setOwnerType(short ownerType) {
    this.ownerType = ownerType;
  }

  public String getClearingFirm() {
    return this.clearingFirm;
  }

  public void setClearingFirm(String clearingFirm) {
    this.clearingFirm = clearingFirm;
  }

  public long getTransactTime() {
    return this.transactTime;
  }

  public void setTransactTime(long transactTime) {
    this.transactTime = transactTime;
  }

  public String getUserInfo() {
    return this.userInfo;
  }

  public void setUserInfo(String userInfo) {
    this.userInfo = userInfo;
  }

  public String getOrderId() {
    return this.orderId;
  }

  public void setOrderId(String orderId) {
    this.orderId = orderId;
  }

  public String getExecId() {
    return this.execId;
  }

  public void setExecId(String execId) {
    this.execId = execId;
  }

  public String getClOrdId() {
    return this.clOrdId;
  }

  public void setClOrdId(String clOrdId) {
    this.clOrdId = clOrdId;
  }

  public String getAccountId() {
    return this.accountId;
  }

  public void setAccountId(String accountId) {
    this.accountId = accountId;
  }

  public String getQuoteReqId() {
    return this.quoteReqId;
  }

  public void setQuoteReqId(String quoteReqId) {
    this.quoteReqId = quoteReqId;
  }

  public String getQuoteId() {
    return this.quoteId;
  }

  public void setQuoteId(String quoteId) {
    this.quoteId = quoteId;
  }

  public String getQuoteRespId() {
    return this.quoteRespId;
  }

  public void setQuoteRespId(String quoteRespId) {
    this.quoteRespId = quoteRespId;
  }

  public byte getQuoteType() {
    return this.quoteType;
  }

  public void setQuoteType(byte quoteType) {
    this.quoteType = quoteType;
  }

  public long getBidPx() {
    return this.bidPx;
  }

  public void setBidPx(long bidPx) {
    this.bidPx = bidPx;
  }

  public long getOfferPx() {
    return this.offerPx;
  }

  public void setOfferPx(long offerPx) {
    this.offerPx = offerPx;
  }

  public long getBidSize() {
    return this.bidSize;
  }

  public void setBidSize(long bidSize) {
    this.bidSize = bidSize;
  }

  public long getOfferSize() {
    return this.offerSize;
  }

  public void setOfferSize(long offerSize) {
    this.offerSize = offerSize;
  }

  public byte getPrivateQuote() {
    return this.privateQuote;
  }

  public void setPrivateQuote(byte privateQuote) {
    this.privateQuote = privateQuote;
  }

  public long getValidUntilTime() {
    return this.validUntilTime;
  }

  public void setValidUntilTime(long validUntilTime) {
    this.validUntilTime = validUntilTime;
  }

  public byte getPriceType() {
    return this.priceType;
  }

  public void setPriceType(byte priceType) {
    this.priceType = priceType;
  }

  public String getMemo() {
    return this.memo;
  }

  public void setMemo(String memo) {
    this.memo = memo;
  }

  public BinaryCodec getApplExtend() {
    return this.applExtend;
  }

  public void setApplExtend(BinaryCodec applExtend) {
    this.applExtend = applExtend;
  }

  @Override
  public void encode(ByteBuf byteBuf) {
    byteBuf.writeIntLE(this.partitionNo);
    byteBuf.writeLongLE(this.reportIndex);
    writeFixedString(byteBuf, this.applId, 3);
    writeFixedString(byteBuf, this.reportingPbuid, 6);
    writeFixedString(byteBuf, this.submittingPbuid, 6);
    writeFixedString(byteBuf, this.securityId, 8);
    writeFixedString(byteBuf, this.securityIdsource, 4);
    byteBuf.writeShortLE(this.ownerType);
    writeFixedString(byteBuf, this.clearingFirm, 2);
    byteBuf.writeLongLE(this.transactTime);
    writeFixedString(byteBuf, this.userInfo, 32);
    writeFixedString(byteBuf, this.orderId, 16);
    writeFixedString(byteBuf, this.execId, 16);
    writeFixedString(byteBuf, this.clOrdId, 10);
    writeFixedString(byteBuf, this.accountId, 10);
    writeFixedString(byteBuf, this.quoteReqId, 10);
    writeFixedString(byteBuf, this.quoteId, 10);
    writeFixedString(byteBuf, this.quoteRespId, 10);
    byteBuf.writeByte(this.quoteType);
    byteBuf.writeLongLE(this.bidPx);
    byteBuf.writeLongLE(this.offerPx);
    byteBuf.writeLongLE(this.bidSize);
    byteBuf.writeLongLE(this.offerSize);
    byteBuf.writeByte(this.privateQuote);
    byteBuf.writeLongLE(this.validUntilTime);
    byteBuf.writeByte(this.priceType);
    writeFixedString(byteBuf, this.memo, 120);
    if (null != this.applExtend) {
      this.applExtend.encode(byteBuf);
    }
  }

  @Override
  public void decode(ByteBuf byteBuf) {
    this.partitionNo = byteBuf.readIntLE();
    this.reportIndex = byteBuf.readLongLE();
    this.applId = readFixedString(byteBuf, 3);
    this.reportingPbuid = readFixedString(byteBuf, 6);
    this.submittingPbuid = readFixedString(byteBuf, 6);
    this.securityId = readFixedString(byteBuf, 8);
    this.securityIdsource = readFixedString(byteBuf, 4);
    this.ownerType = byteBuf.readShortLE();
    this.clearingFirm = readFixedString(byteBuf, 2);
    this.transactTime = byteBuf.readLongLE();
    this.userInfo = readFixedString(byteBuf, 32);
    this.orderId = readFixedString(byteBuf, 16);
    this.execId = readFixedString(byteBuf, 16);
    this.clOrdId = readFixedString(byteBuf, 10);
    this.accountId = readFixedString(byteBuf, 10);
    this.quoteReqId = readFixedString(byteBuf, 10);
    this.quoteId = readFixedString(byteBuf, 10);
    this.quoteRespId = readFixedString(byteBuf, 10);
    this.quoteType = byteBuf.readByte();
    this.bidPx = byteBuf.readLongLE();
    this.offerPx = byteBuf.readLongLE();
    this.bidSize = byteBuf.readLongLE();
    this.offerSize = byteBuf.readLongLE();
    this.privateQuote = byteBuf.readByte();
    this.validUntilTime = byteBuf.readLongLE();
    this.priceType = byteBuf.readByte();
    this.memo = readFixedString(byteBuf, 120);
    this.applExtend = ApplExtendMessageFactory.getInstance().create(this.applId);
    this.applExtend.decode(byteBuf);
  }

  @Override
  public int hashCode() {
    return Objects.hash(
        partitionNo,
        reportIndex,
        applId,
        reportingPbuid,
        submittingPbuid,
        securityId,
        securityIdsource,
        ownerType,
        clearingFirm,
        transactTime,
        userInfo,
        orderId,
        execId,
        clOrdId,
        accountId,
        quoteReqId,
        quoteId,
        quoteRespId,
        quoteType,
        bidPx,
        offerPx,
        bidSize,
        offerSize,
        privateQuote,
        validUntilTime,
        priceType,
        memo,
        applExtend);
  }

  @Override
  public boolean equals(Object obj) {
    if (this == obj) {
      return true;
    }
    if (null == obj || getClass() != obj.getClass()) {
      return false;
    }
    AllegeQuote orther_ = (AllegeQuote) obj;
    return Objects.equals(partitionNo, orther_.partitionNo)
        && Objects.equals(reportIndex, orther_.reportIndex)
        && Objects.equals(applId, orther_.applId)
        && Objects.equals(reportingPbuid, orther_.reportingPbuid)
        && Objects.equals(submittingPbuid, orther_.submittingPbuid)
        && Objects.equals(securityId, orther_.securityId)
        && Objects.equals(securityIdsource, orther_.securityIdsource)
        && Objects.equals(ownerType, orther_.ownerType)
        && Objects.equals(clearingFirm, orther_.clearingFirm)
        && Objects.equals(transactTime, orther_.transactTime)
        && Objects.equals(userInfo, orther_.userInfo)
        && Objects.equals(orderId, orther_.orderId)
        && Objects.equals(execId, orther_.execId)
        && Objects.equals(clOrdId, orther_.clOrdId)
        && Objects.equals(accountId, orther_.accountId)
        && Objects.equals(quoteReqId, orther_.quoteReqId)
        && Objects.equals(quoteId, orther_.quoteId)
        && Objects.equals(quoteRespId, orther_.quoteRespId)
        && Objects.equals(quoteType, orther_.quoteType)
        && Objects.equals(bidPx, orther_.bidPx)
        && Objects.equals(offerPx, orther_.offerPx)
        && Objects.equals(bidSize, orther_.bidSize)
        && Objects.equals(offerSize, orther_.offerSize)
        && Objects.equals(privateQuote, orther_.privateQuote)
        && Objects.equals(validUntilTime, orther_.validUntilTime)
        && Objects.equals(priceType, orther_.priceType)
        && Objects.equals(memo, orther_.memo)
        && Objects.equals(applExtend, orther_.applExtend);
  }

  @Override
  public String toString() {
    return ""AllegeQuote [""
        + ""partitionNo=""
        + this.partitionNo
        + "", reportIndex=""
        + this.reportIndex
        + "", applId=""
        + this.applId
        + "", reportingPbuid=""
        + this.reportingPbuid
        + "", submittingPbuid=""
        + this.submittingPbuid
        + "", securityId=""
        + this.securityId
        + "", securityIdsource=""
        + this.securityIdsource
        + "", ownerType=""
        + this.ownerType
        + "", clearingFirm=""
        + this.clearingFirm
        + "", transactTime=""
        + this.transactTime
        + "", userInfo=""
        + this.userInfo
        + "", orderId=""
        + this.orderId
        + "", execId=""
        + this.execId
        + "", clOrdId=""
        + this.clOrdId
        + "", accountId=""
        + this.accountId
        + "", quoteReqId=""
        + this.quoteReqId
        + "", quoteId=""
        + this.quoteId
        + "", quoteRespId=""
        + this.quoteRespId
        + "", quoteType=""
        + this.quoteType
        + "", bidPx=""
        + this.bidPx
        + "", offerPx=""
        + this.offerPx
        + "", bidSize=""
        + this.bidSize
        + "", offerSize=""
        + this.offerSize
        + "", privateQuote=""
        + this.privateQuote
        + "", validUntilTime=""
        + this.validUntilTime
        + "", priceType=""
        + this.priceType
        + "", memo=""
        + this.memo
        + "", applExtend=""
        + this.applExtend
        + ""]"";
  }

  public static enum ApplExtendMessageFactory {
    INSTANCE;
    private final Map<String, Supplier<BinaryCodec>> applExtendMap = new HashMap<>();

    static {
      getInstance().register(""070"", AllegeQuoteExtend070::new);
    }

    public BinaryCodec create(String applId) {
      Supplier<BinaryCodec> supplier = applExtendMap.get(applId);
      if (null == supplier) {
        throw new IllegalArgumentException(""Unsupported ApplID:"" + applId);
      }
      return supplier.get();
    }

    public void register(String applId, Supplier<BinaryCodec> supplier) {
      applExtendMap.put(applId, supplier);
    }

    public boolean remove(String applId) {
      return null != applExtendMap.remove(applId);
    }

    public static ApplExtendMessageFactory getInstance() {
      return INSTANCE;
    }
  }
}
".

(* bjse-bin/src/main/java/com/finproto/bjse/trade/messages/AllegeQuoteExtend070.java *)
Definition text_bjse_AllegeQuoteExtend070 : text :=
"// Code generated by fin-protoc. DO NOT EDIT.
package com.finproto.bjse.trade.messages;

import com.finproto.codec.BinaryCodec;
import io.netty.buffer.ByteBuf;
import java.util.Objects;

public class AllegeQuoteExtend070 implements BinaryCodec {
  private String cashMargin;
  private String counterPartyPbuid;

  public String getCashMargin() {
    return this.cashMargin;
  }

  public void setCashMargin(String cashMargin) {
    this.cashMargin = cashMargin;
  }

  public String getCounterPartyPbuid() {
    return this.counterPartyPbuid;
  }

  public void setCounterPartyPbuid(String counterPartyPbuid) {
    this.counterPartyPbuid = counterPartyPbuid;
  }

  @Override
  public void encode(ByteBuf byteBuf) {
    writeFixedString(byteBuf, this.cashMargin, 1);
    writeFixedString(byteBuf, this.counterPartyPbuid, 6);
  }

  @Override
  public void decode(ByteBuf byteBuf) {
    this.cashMargin = readFixedString(byteBuf, 1);
    this.counterPartyPbuid = readFixedString(byteBuf, 6);
  }

  @Override
  public int hashCode() {
    return Objects.hash(cashMargin, counterPartyPbuid);
  }

  @Override
  public boolean equals(Object obj) {
    if (this == obj) {
      return true;
    }
    if (null == obj || getClass() != obj.getClass()) {
      return false;
    }
    AllegeQuoteExtend070 orther_ = (AllegeQuoteExtend070) obj;
    return Objects.equals(cashMargin, orther_.cashMargin)
        && Objects.equals(counterPartyPbuid, orther_.counterPartyPbuid);
  }

  @Override
  public String toString() {
    return ""AllegeQuoteExtend070 [""
        + ""cashMargin=""
        + this.cashMargin
        + "", counterPartyPbuid=""
        + this.counterPartyPbuid
        + ""]"";
  }
}
".

(* bjse-bin/src/main/java/com/finproto/bjse/trade/messages/AllegeQuoteResponse.java *)
Definition text_bjse_AllegeQuoteResponse : text :=
"// Code generated by fin-protoc. DO NOT EDIT.
package com.finproto.bjse.trade.messages;

import com.finproto.codec.BinaryCodec;
import io.netty.buffer.ByteBuf;
import java.util.Objects;

public class AllegeQuoteResponse implements BinaryCodec {
  private int partitionNo;
  private long reportIndex;
  private String applId;
  private String reportingPbuid;
  private String submittingPbuid;
  private String securityId;
  private String securityIdsource;
  private short ownerType;
  private String clearingFirm;
  private long transactTime;
  private String userInfo;
  private String orderId;
  private String execId;
  private String clOrdId;
  private String accountId;
  private String quoteId;
  private String quoteRespId;
  private byte quoteRespType;
  private byte privateQuote;
  private long orderQty;
  private long price;
  private long validUntilTime;
  private byte quoteType;
  private byte priceType;

  public int getPartitionNo() {
    return this.partitionNo;
  }

  public void setPartitionNo(int partitionNo) {
    this.partitionNo = partitionNo;
  }

  public long getReportIndex() {
    return this.reportIndex;
  }

  public void setReportIndex(long reportIndex) {
    this.reportIndex = reportIndex;
  }

  public String getApplId() {
    return this.applId;
  }

  public void setApplId(String applId) {
    this.applId = applId;
  }

  public String getReportingPbuid() {
    return this.reportingPbuid;
  }

  public void setReportingPbuid(String reportingPbuid) {
    this.reportingPbuid = reportingPbuid;
  }

  public String getSubmittingPbuid() {
    return this.submittingPbuid;
  }

  public void setSubmittingPbuid(String submittingPbuid) {
    this.submittingPbuid = submittingPbuid;
  }

  public String getSecurityId() {
    return this.securityId;
  }

  public void setSecurityId(String securityId) {
    this.securityId = securityId;
  }

  public String getSecurityIdsource() {
    return this.securityIdsource;
  }

  public void setSecurityIdsource(String securityIdsource) {
    this.securityIdsource = securityIdsource;
  }

  public short getOwnerType() {
    return this.ownerType;
  }

  public void setOwnerType(short ownerType) {
    this.ownerType = ownerType;
  }

  public String getClearingFirm() {
    return this.clearingFirm;
  }

  public void setClearingFirm(String clearingFirm) {
    this.clearingFirm = clearingFirm;
  }

  public long getTransactTime() {
    return this.transactTime;
  }

  public void setTransactTime(long transactTime) {
    this.transactTime = transactTime;
  }

  public String getUserInfo() {
    return this.userInfo;
  }

  public void setUserInfo(String userInfo) {
    this.userInfo = userInfo;
  }

  public String getOrderId() {
    return this.orderId;
  }

  public void setOrderId(String orderId) {
    this.orderId = orderId;
  }

  public String getExecId() {
    return this.execId;
  }

  public void setExecId(String execId) {
    this.execId = execId;
  }

  public String getClOrdId() {
    return this.clOrdId;
  }

  public void setClOrdId(String clOrdId) {
    this.clOrdId = clOrdId;
  }

  public String getAccountId() {
    return this.accountId;
  }

  public void setAccountId(String accountId) {
    this.accountId = accountId;
  }

  public String getQuoteId() {
    return this.quoteId;
  }

  public void setQuoteId(String quoteId) {
    this.quoteId = quoteId;
  }

  public String getQuoteRespId() {
    return this.quoteRespId;
  }

  public void setQuoteRespId(String quoteRespId) {
    this.quoteRespId = quoteRespId;
  }

  public byte getQuoteRespType() {
    return this.quoteRespType;
  }

  public void setQuoteRespType(byte quoteRespType) {
    this.quoteRespType = quoteRespType;
  }

  public byte getPrivateQuote() {
    return this.privateQuote;
  }

  public void setPrivateQuote(byte privateQuote) {
    this.privateQuote = privateQuote;
  }

  public long getOrderQty() {
    return this.orderQty;
  }

  public void setOrderQty(long orderQty) {
    this.orderQty = orderQty;
  }

  public long getPrice() {
    return this.price;
  }

  public void setPrice(long price) {
    this.price = price;
  }

  public long getValidUntilTime() {
    return this.validUntilTime;
  }

  public void setValidUntilTime(long validUntilTime) {
    this.validUntilTime = validUntilTime;
  }

  public byte getQuoteType() {
    return this.quoteType;
  }

  public void setQuoteType(byte quoteType) {
    this.quoteType = quoteType;
  }

  public byte getPriceType() {
    return this.priceType;
  }

  public void setPriceType(byte priceType) {
    this.priceType = priceType;
  }

  @Override
  public void encode(ByteBuf byteBuf) {
    byteBuf.writeIntLE(this.partitionNo);
    byteBuf.writeLongLE(this.reportIndex);
    writeFixedString(byteBuf, this.applId, 3);
    writeFixedString(byteBuf, this.reportingPbuid, 6);
    writeFixedString(byteBuf, this.submittingPbuid, 6);
    writeFixedString(byteBuf, this.securityId, 8);
    writeFixedString(byteBuf, this.securityIdsource, 4);
    byteBuf.writeShortLE(this.ownerType);
    writeFixedString(byteBuf, this.clearingFirm, 2);
    byteBuf.writeLongLE(this.transactTime);
    writeFixedString(byteBuf, this.userInfo, 32);
    writeFixedString(byteBuf, this.orderId, 16);
    writeFixedString(byteBuf, this.execId, 16);
    writeFixedString(byteBuf, this.clOrdId, 10);
    writeFixedString(byteBuf, this.accountId, 10);
    writeFixedString(byteBuf, this.quoteId, 10);
    writeFixedString(byteBuf, this.quoteRespId, 10);
    byteBuf.writeByte(this.quoteRespType);
    byteBuf.writeByte(this.privateQuote);
    byteBuf.writeLongLE(this.orderQty);
    byteBuf.writeLongLE(this.price);
    byteBuf.writeLongLE(this.validUntilTime);
    byteBuf.writeByte(this.quoteType);
    byteBuf.writeByte(this.priceType);
  }

  @Override
  public void decode(ByteBuf byteBuf) {
    this.partitionNo = byteBuf.readIntLE();
    this.reportIndex = byteBuf.readLongLE();
    this.applId = readFixedString(byteBuf, 3);
    this.reportingPbuid = readFixedString(byteBuf, 6);
    this.submittingPbuid = readFixedString(byteBuf, 6);
    this.securityId = readFixedString(byteBuf, 8);
    this.securityIdsource = readFixedString(byteBuf, 4);
    this.ownerType = byteBuf.readShortLE();
    this.clearingFirm = readFixedString(byteBuf, 2);
    this.transactTime = byteBuf.readLongLE();
    this.userInfo = readFixedString(byteBuf, 32);
    this.orderId = readFixedString(byteBuf, 16);
    this.execId = readFixedString(byteBuf, 16);
    this.clOrdId = readFixedString(byteBuf, 10);
    this.accountId = readFixedString(byteBuf, 10);
    this.quoteId = readFixedString(byteBuf, 10);
    this.quoteRespId = readFixedString(byteBuf, 10);
    this.quoteRespType = byteBuf.readByte();
    this.privateQuote = byteBuf.readByte();
    this.orderQty = byteBuf.readLongLE();
    this.price = byteBuf.readLongLE();
    this.validUntilTime = byteBuf.readLongLE();
    this.quoteType = byteBuf.readByte();
    this.priceType = byteBuf.readByte();
  }

  @Override
  public int hashCode() {
    return Objects.hash(
        partitionNo,
        reportIndex,
        applId,
        reportingPbuid,
        submittingPbuid,
        securityId,
        securityIdsource,
        ownerType,
        clearingFirm,
        transactTime,
        userInfo,
        orderId,
        execId,
        clOrdId,
        accountId,
        quoteId,
        quoteRespId,
        quoteRespType,
        privateQuote,
        orderQty,
        price,
        validUntilTime,
        quoteType,
        priceType);
  }

  @Override
  public boolean equals(Object obj) {
    if (this == obj) {
      return true;
    }
    if (null == obj || getClass() != obj.getClass()) {
      return false;
    }
    AllegeQuoteResponse orther_ = (AllegeQuoteResponse) obj;
    return Objects.equals(partitionNo, orther_.partitionNo)
        && Objects.equals(reportIndex, orther_.reportIndex)
        && Objects.equals(applId, orther_.applId)
        && Objects.equals(reportingPbuid, orther_.reportingPbuid)
        && Objects.equals(submittingPbuid, orther_.submittingPbuid)
        && Objects.equals(securityId, orther_.securityId)
        && Objects.equals(securityIdsource, orther_.securityIdsource)
        && Objects.equals(ownerType, orther_.ownerType)
        && Objects.equals(clearingFirm, orther_.clearingFirm)
        && Objects.equals(transactTime, orther_.transactTime)
        && Objects.equals(userInfo, orther_.userInfo)
        && Objects.equals(orderId, orther_.orderId)
        && Objects.equals(execId, orther_.execId)
        && Objects.equals(clOrdId, orther_.clOrdId)
        && Objects.equals(accountId, orther_.accountId)
        && Objects.equals(quoteId, orther_.quoteId)
        && Objects.equals(quoteRespId, orther_.quoteRespId)
        && Objects.equals(quoteRespType, orther_.quoteRespType)
        && Objects.equals(privateQuote, orther_.privateQuote)
        && Objects.equals(orderQty, orther_.orderQty)
        && Objects.equals(price, orther_.price)
        && Objects.equals(validUntilTime, orther_.validUntilTime)
        && Objects.equals(quoteType, orther_.quoteType)
        && Objects.equals(priceType, orther_.priceType);
  }

  @Override
  public String toString() {
    return ""AllegeQuoteResponse [""
        + ""partitionNo=""
        + this.partitionNo
        + "", reportIndex=""
        + this.reportIndex
        + "", applId=""
        + this.applId
        + "", reportingPbuid=""
        + this.reportingPbuid
        + "", submittingPbuid=""
        + this.submittingPbuid
        + "", securityId=""
        + this.securityId
        + "", securityIdsource=""
        + this.securityIdsource
        + "", ownerType=""
        + this.ownerType
        + "", clearingFirm=""
        + this.clearingFirm
        + "", transactTime=""
        + this.transactTime
        + "", userInfo=""
        + this.userInfo
        + "", orderId=""
        + this.orderId
        + "", execId=""
        + this.execId
        + "", clOrdId=""
        + this.clOrdId
        + "", accountId=""
        + this.accountId
        + "", quoteId=""
        + this.quoteId
        + "", quoteRespId=""
        + this.quoteRespId
        + "", quoteRespType=""
        + this.quoteRespType
        + "", privateQuote=""
        + this.privateQuote
        + "", orderQty=""
        + this.orderQty
        + "", price=""
        + this.price
        + "", validUntilTime=""
        + this.validUntilTime
        + "", quoteType=""
        + this.quoteType
        + "", priceType=""
        + this.priceType
        + ""]"";
  }
}
".

(* bjse-bin/src/main/java/com/finproto/bjse/trade/messages/BjseBinary.java *)
Definition text_bjse_BjseBinary : text :=
"// Code generated by fin-protoc. DO NOT EDIT.
package com.finproto.bjse.trade.messages;

import com.finproto.codec.BinaryCodec;
import io.netty.buffer.ByteBuf;
import java.util.HashMap;
import java.util.Map;
import java.util.Objects;
import java.util.function.Supplier;

public class BjseBinary implements BinaryCodec {
  private int msgType;
  private int bodyLength;
  private BinaryCodec body;
  private int checksum;

  public int getMsgType() {
    return this.msgType;
  }

  public void setMsgType(int msgType) {
    this.msgType = msgType;
  }

  public int getBodyLength() {
    return this.bodyLength;
  }

  public void setBodyLength(int bodyLength) {
    this.bodyLength = bodyLength;
  }

  public BinaryCodec getBody() {
    return this.body;
  }

  public void setBody(BinaryCodec body) {
    this.body = body;
  }

  public int getChecksum() {
    return this.checksum;
  }

  public void setChecksum(int checksum) {
    this.checksum = checksum;
  }

  @Override
  public void encode(ByteBuf byteBuf) {
    byteBuf.writeIntLE(this.msgType);
    byteBuf.writeIntLE(this.bodyLength);
    if (null != this.body) {
      this.body.encode(byteBuf);
    }
    byteBuf.writeIntLE(this.checksum);
  }

  @Override
  public void decode(ByteBuf byteBuf) {
    this.msgType = byteBuf.readIntLE();
    this.bodyLength = byteBuf.readIntLE();
    this.body = BodyMessageFactory.getInstance().create(this.msgType);
    this.body.decode(byteBuf);
    this.checksum = byteBuf.readIntLE();
  }

  @Override
  public int hashCode() {
    return Objects.hash(msgType, bodyLength, body, checksum);
  }

  @Override
  public boolean equals(Object obj) {
    if (this == obj) {
      return true;
    }
    if (null == obj || getClass() != obj.getClass()) {
      return false;
    }
    BjseBinary orther_ = (BjseBinary) obj;
    return Objects.equals(msgType, orther_.msgType)
        && Objects.equals(bodyLength, orther_.bodyLength)
        && Objects.equals(body, orther_.body)
        && Objects.equals(checksum, orther_.checksum);
  }

  @Override
  public String toString() {
    return ""BjseBinary [""
        + ""msgType=""
        + this.msgType
        + "", bodyLength=""
        + this.bodyLength
        + "", body=""
        + this.body
        + "", checksum=""
        + this.checksum
        + ""]"";
  }

  public static enum BodyMessageFactory {
    INSTANCE;
    private final Map<Integer, Supplier<BinaryCodec>> bodyMap = new HashMap<>();

    static {
      getInstance().register((int) 1, Logon::new);
      getInstance().register((int) 2, Logout::new);
      getInstance().register((int) 3, Heartbeat::new);
      getInstance().register((int) 101000, NewOrder::new);
      getInstance().register((int) 102000, OrderCancelRequest::new);
      getInstance().register((int) 201000, CancelReject::new);
      getInstance().register((int) 202010, ExecutionConfirm::new);
      getInstance().register((int) 203010, ExecutionReport::new);
      getInstance().register((int) 5, ReportSynchronization::new);
      getInstance().register((int) 6, PlatformStateInfo::new);
      getInstance().register((int) 7, ReportFinished::new);
    }

    public BinaryCodec create(Integer msgType) {
      Supplier<BinaryCodec> supplier = bodyMap.get(msgType);
      if (null == supplier) {
        throw new IllegalArgumentException(""Unsupported MsgType:"" + msgType);
      }
      return supplier.get();
    }

    public void register(Integer msgType, Supplier<BinaryCodec> supplier) {
      bodyMap.put(msgType, supplier);
    }

    public boolean remove(Integer msgType) {
      return null != bodyMap.remove(msgType);
    }

    public static BodyMessageFactory getInstance() {
      return INSTANCE;
    }
  }
}
".

(* bjse-bin/src/main/java/com/finproto/bjse/trade/messages/BusinessReject.java *)
Definition text_bjse_BusinessReject : text :=
"// Code generated by fin-protoc. DO NOT EDIT.
package com.finproto.bjse.trade.messages;

import com.finproto.codec.BinaryCodec;
import io.netty.buffer.ByteBuf;
import java.util.Objects;

public class BusinessReject implements BinaryCodec {
  private String applId;
  private long transactTime;
  private String submittingPbuid;
  private String securityId;
  private String securityIdsource;
  private long refSeqNum;
  private int refMsgType;
  private String businessRejectRefId;
  private short businessRejectReason;
  private String businessRejectText;

  public String getApplId() {
    return this.applId;
  }

  public void setApplId(String applId) {
    this.applId = applId;
  }

  public long getTransactTime() {
    return this.transactTime;
  }

  public void setTransactTime(long transactTime) {
    this.transactTime = transactTime;
  }

  public String getSubmittingPbuid() {
    return this.submittingPbuid;
  }

  public void setSubmittingPbuid(String submittingPbuid) {
    this.submittingPbuid = submittingPbuid;
  }

  public String getSecurityId() {
    return this.securityId;
  }

  public void setSecurityId(String securityId) {
    this.securityId = securityId;
  }

  public String getSecurityIdsource() {
    return this.securityIdsource;
  }

  public void setSecurityIdsource(String securityIdsource) {
    this.securityIdsource = securityIdsource;
  }

  public long getRefSeqNum() {
    return this.refSeqNum;
  }

  public void setRefSeqNum(long refSeqNum) {
    this.refSeqNum = refSeqNum;
  }

  public int getRefMsgType() {
    return this.refMsgType;
  }

  public void setRefMsgType(int refMsgType) {
    this.refMsgType = refMsgType;
  }

  public String getBusinessRejectRefId() {
    return this.businessRejectRefId;
  }

  public void setBusinessRejectRefId(String businessRejectRefId) {
    this.businessRejectRefId = businessRejectRefId;
  }

  public short getBusinessRejectReason() {
    return this.businessRejectReason;
  }

  public void setBusinessRejectReason(short businessRejectReason) {
    this.businessRejectReason = businessRejectReason;
  }

  public String getBusinessRejectText() {
    return this.businessRejectText;
  }

  public void setBusinessRejectText(String businessRejectText) {
    this.businessRejectText = businessRejectText;
  }

  @Override
  public void encode(ByteBuf byteBuf) {
    writeFixedString(byteBuf, this.applId, 3);
    byteBuf.writeLongLE(this.transactTime);
    writeFixedString(byteBuf, this.submittingPbuid, 6);
    writeFixedString(byteBuf, this.securityId, 8);
    writeFixedString(byteBuf, this.securityIdsource, 4);
    byteBuf.writeLongLE(this.refSeqNum);
    byteBuf.writeIntLE(this.refMsgType);
    writeFixedString(byteBuf, this.businessRejectRefId, 10);
    byteBuf.writeShortLE(this.businessRejectReason);
    writeFixedString(byteBuf, this.businessRejectText, 50);
  }

  @Override
  public void decode(ByteBuf byteBuf) {
    this.applId = readFixedString(byteBuf, 3);
    this.transactTime = byteBuf.readLongLE();
    this.submittingPbuid = readFixedString(byteBuf, 6);
    this.securityId = readFixedString(byteBuf, 8);
    this.securityIdsource = readFixedString(byteBuf, 4);
    this.refSeqNum = byteBuf.readLongLE();
    this.refMsgType = byteBuf.readIntLE();
    this.businessRejectRefId = readFixedString(byteBuf, 10);
    this.businessRejectReason = byteBuf.readShortLE();
    this.businessRejectText = readFixedString(byteBuf, 50);
  }

  @Override
  public int hashCode() {
    return Objects.hash(
        applId,
        transactTime,
        submittingPbuid,
        securityId,
        securityIdsource,
        refSeqNum,
        refMsgType,
        businessRejectRefId,
        businessRejectReason,
        businessRejectText);
  }

  @Override
  public boolean equals(Object obj) {
    if (this == obj) {
      return true;
    }
    if (null == obj || getClass() != obj.getClass()) {
      return false;
    }
    BusinessReject orther_ = (BusinessReject) obj;
    return Objects.equals(applId, orther_.applId)
        && Objects.equals(transactTime, orther_.transactTime)
        && Objects.equals(submittingPbuid, orther_.submittingPbuid)
        && Objects.equals(securityId, orther_.securityId)
        && Objects.equals(securityIdsource, orther_.securityIdsource)
        && Objects.equals(refSeqNum, orther_.refSeqNum)
        && Objects.equals(refMsgType, orther_.refMsgType)
        && Objects.equals(businessRejectRefId, orther_.businessRejectRefId)
        && Objects.equals(businessRejectReason, orther_.businessRejectReason)
        && Objects.equals(businessRejectText, orther_.businessRejectText);
  }

  @Override
  public String toString() {
    return ""BusinessReject [""
        + ""applId=""
        + this.applId
        + "", transactTime=""
        + this.transactTime
        + "", submittingPbuid=""
        + this.submittingPbuid
        + "", securityId=""
        + this.securityId
        + "", securityIdsource=""
        + this.securityIdsource
        + "", refSeqNum=""
        + this.refSeqNum
        + "", refMsgType=""
        + this.refMsgType
        + "", businessRejectRefId=""
        + this.businessRejectRefId
        + "", businessRejectReason=""
        + this.businessRejectReason
        + "", businessRejectText=""
        + this.businessRejectText
        + ""]"";
  }
}
".

(* bjse-bin/src/main/java/com/finproto/bjse/trade/messages/CancelReject.java *)
Definition text_bjse_CancelReject : text :=
"// Code generated by fin-protoc. DO NOT EDIT.
package com.finproto.bjse.trade.messages;

import com.finproto.codec.BinaryCodec;
import io.netty.buffer.ByteBuf;
import java.util.Objects;

public class CancelReject implements BinaryCodec {
  private int partitionNo;
  private long reportIndex;
  private String applId;
  private String reportingPbuid;
  private String submittingPbuid;
  private String securityId;
  private String securityIdsource;
  private short ownerType;
  private String clearingFirm;
  private long transactTime;
  private String userInfo;
  private String clOrdId;
  private String origClOrdId;
  private String accountId;
  private String branchId;
  private String ordStatus;
  private short cxlRejReason;
  private String rejectText;
  private String orderId;

  public int getPartitionNo() {
    return this.partitionNo;
  }

  public void setPartitionNo(int partitionNo) {
    this.partitionNo = partitionNo;
  }

  public long getReportIndex() {
    return this.reportIndex;
  }

  public void setReportIndex(long reportIndex) {
    this.reportIndex = reportIndex;
  }

  public String getApplId() {
    return this.applId;
  }

  public void setApplId(String applId) {
    this.applId = applId;
  }

  public String getReportingPbuid() {
    return this.reportingPbuid;
  }

  public void setReportingPbuid(String reportingPbuid) {
    this.reportingPbuid = reportingPbuid;
  }

  public String getSubmittingPbuid() {
    return this.submittingPbuid;
  }

  public void setSubmittingPbuid(String submittingPbuid) {
    this.submittingPbuid = submittingPbuid;
  }

  public String getSecurityId() {
    return this.securityId;
  }

  public void setSecurityId(String securityId) {
    this.securityId = securityId;
  }

  public String getSecurityIdsource() {
    return this.securityIdsource;
  }

  public void setSecurityIdsource(String securityIdsource) {
    this.securityIdsource = securityIdsource;
  }

  public short getOwnerType() {
    return this.ownerType;
  }

  public void setOwnerType(short ownerType) {
    this.ownerType = ownerType;
  }

  public String getClearingFirm() {
    return this.clearingFirm;
  }

  public void setClearingFirm(String clearingFirm) {
    this.clearingFirm = clearingFirm;
  }

  public long getTransactTime() {
    return this.transactTime;
  }

  public void setTransactTime(long transactTime) {
    this.transactTime = transactTime;
  }

  public String getUserInfo() {
    return this.userInfo;
  }

  public void setUserInfo(String userInfo) {
    this.userInfo = userInfo;
  }

  public String getClOrdId() {
    return this.clOrdId;
  }

  public void setClOrdId(String clOrdId) {
    this.clOrdId = clOrdId;
  }

  public String getOrigClOrdId() {
    return this.origClOrdId;
  }

  public void setOrigClOrdId(String origClOrdId) {
    this.origClOrdId = origClOrdId;
  }

  public String getAccountId() {
    return this.accountId;
  }

  public void setAccountId(String accountId) {
    this.accountId = accountId;
  }

  public String getBranchId() {
    return this.branchId;
  }

  public void setBranchId(String branchId) {
    this.branchId = branchId;
  }

  public String getOrdStatus() {
    return this.ordStatus;
  }

  public void setOrdStatus(String ordStatus) {
    this.ordStatus = ordStatus;
  }

  public short getCxlRejReason() {
    return this.cxlRejReason;
  }

  public void setCxlRejReason(short cxlRejReason) {
    this.cxlRejReason = cxlRejReason;
  }

  public String getRejectText() {
    return this.rejectText;
  }

  public void setRejectText(String rejectText) {
    this.rejectText = rejectText;
  }

  public String getOrderId() {
    return this.orderId;
  }

  public void setOrderId(String orderId) {
    this.orderId = orderId;
  }

  @Override
  public void encode(ByteBuf byteBuf) {
    byteBuf.writeIntLE(this.partitionNo);
    byteBuf.writeLongLE(this.reportIndex);
    writeFixedString(byteBuf, this.applId, 3);
    writeFixedString(byteBuf, this.reportingPbuid, 6);
    writeFixedString(byteBuf, this.submittingPbuid, 6);
    writeFixedString(byteBuf, this.securityId, 8);
    writeFixedString(byteBuf, this.securityIdsource, 4);
    byteBuf.writeShortLE(this.ownerType);
    writeFixedString(byteBuf, this.clearingFirm, 2);
    byteBuf.writeLongLE(this.transactTime);
    writeFixedString(byteBuf, this.userInfo, 32);
    writeFixedString(byteBuf, this.clOrdId, 10);
    writeFixedString(byteBuf, this.origClOrdId, 10);
    writeFixedString(byteBuf, this.accountId, 10);
    writeFixedString(byteBuf, this.branchId, 2);
    writeFixedString(byteBuf, this.ordStatus, 1);
    byteBuf.writeShortLE(this.cxlRejReason);
    writeFixedString(byteBuf, this.rejectText, 16);
    writeFixedString(byteBuf, this.orderId, 16);
  }

  @Override
  public void decode(ByteBuf byteBuf) {
    this.partitionNo = byteBuf.readIntLE();
    this.reportIndex = byteBuf.readLongLE();
    this.applId = readFixedString(byteBuf, 3);
    this.reportingPbuid = readFixedString(byteBuf, 6);
    this.submittingPbuid = readFixedString(byteBuf, 6);
    this.securityId = readFixedString(byteBuf, 8);
    this.securityIdsource = readFixedString(byteBuf, 4);
    this.ownerType = byteBuf.readShortLE();
    this.clearingFirm = readFixedString(byteBuf, 2);
    this.transactTime = byteBuf.readLongLE();
    this.userInfo = readFixedString(byteBuf, 32);
    this.clOrdId = readFixedString(byteBuf, 10);
    this.origClOrdId = readFixedString(byteBuf, 10);
    this.accountId = readFixedString(byteBuf, 10);
    this.branchId = readFixedString(byteBuf, 2);
    this.ordStatus = readFixedString(byteBuf, 1);
    this.cxlRejReason = byteBuf.readShortLE();
    this.rejectText = readFixedString(byteBuf, 16);
    this.orderId = readFixedString(byteBuf, 16);
  }

  @Override
  public int hashCode() {
    return Objects.hash(
        partitionNo,
        reportIndex,
        applId,
        reportingPbuid,
        submittingPbuid,
        securityId,
        securityIdsource,
        ownerType,
        clearingFirm,
        transactTime,
        userInfo,
        clOrdId,
        origClOrdId,
        accountId,
        branchId,
        ordStatus,
        cxlRejReason,
        rejectText,
        orderId);
  }

  @Override
  public boolean equals(Object obj) {
    if (this == obj) {
      return true;
    }
    if (null == obj || getClass() != obj.getClass()) {
      return false;
    }
    CancelReject orther_ = (CancelReject) obj;
    return Objects.equals(partitionNo, orther_.partitionNo)
        && Objects.equals(reportIndex, orther_.reportIndex)
        && Objects.equals(applId, orther_.applId)
        && Objects.equals(reportingPbuid, orther_.reportingPbuid)
        && Objects.equals(submittingPbuid, orther_.submittingPbuid)
        && Objects.equals(securityId, orther_.securityId)
        && Objects.equals(securityIdsource, orther_.securityIdsource)
        && Objects.equals(ownerType, orther_.ownerType)
        && Objects.equals(clearingFirm, orther_.clearingFirm)
        && Objects.equals(transactTime, orther_.transactTime)
        && Objects.equals(userInfo, orther_.userInfo)
        && Objects.equals(clOrdId, orther_.clOrdId)
        && Objects.equals(origClOrdId, orther_.origClOrdId)
        && Objects.equals(accountId, orther_.accountId)
        && Objects.equals(branchId, orther_.branchId)
        && Objects.equals(ordStatus, orther_.ordStatus)
        && Objects.equals(cxlRejReason, orther_.cxlRejReason)
        && Objects.equals(rejectText, orther_.rejectText)
        && Objects.equals(orderId, orther_.orderId);
  }

  @Override
  public String toString() {
    return ""CancelReject [""
        + ""partitionNo=""
        + this.partitionNo
        + "", reportIndex=""
        + this.reportIndex
        + "", applId=""
        + this.applId
        + "", reportingPbuid=""
        + this.reportingPbuid
        + "", submittingPbuid=""
        + this.submittingPbuid
        + "", securityId=""
        + this.securityId
        + "", securityIdsource=""
        + this.securityIdsource
        + "", ownerType=""
        + this.ownerType
        + "", clearingFirm=""
        + this.clearingFirm
        + "", transactTime=""
        + this.transactTime
        + "", userInfo=""
        + this.userInfo
        + "", clOrdId=""
        + this.clOrdId
        + "", origClOrdId=""
        + this.origClOrdId
        + "", accountId=""
        + this.accountId
        + "", branchId=""
        + this.branchId
        + "", ordStatus=""
        + this.ordStatus
        + "", cxlRejReason=""
        + this.cxlRejReason
        + "", rejectText=""
        + this.rejectText
        + "", orderId=""
        + this.orderId
        + ""]"";
  }
}
".

(* bjse-bin/src/main/java/com/finproto/bjse/trade/messages/ConfirmExtend010.java *)
Definition text_bjse_ConfirmExtend010 : text :=
"// Code generated by fin-protoc. DO NOT EDIT.
package com.finproto.bjse.trade.messages;

import com.finproto.codec.BinaryCodec;
import io.netty.buffer.ByteBuf;
import java.util.Objects;

public class ConfirmExtend010 implements BinaryCodec {
  private long stopPx;
  private long minQty;
  private short maxPriceLevels;
  private String timeInForce;
  private String cashMargin;

  public long getStopPx() {
    return this.stopPx;
  }

  public void setStopPx(long stopPx) {
    this.stopPx = stopPx;
  }

  public long getMinQty() {
    return this.minQty;
  }

  public void setMinQty(long minQty) {
    this.minQty = minQty;
  }

  public short getMaxPriceLevels() {
    return this.maxPriceLevels;
  }

  public void setMaxPriceLevels(short maxPriceLevels) {
    this.maxPriceLevels = maxPriceLevels;
  }

  public String getTimeInForce() {
    return this.timeInForce;
  }

  public void setTimeInForce(String timeInForce) {
    this.timeInForce = timeInForce;
  }

  public String getCashMargin() {
    return this.cashMargin;
  }

  public void setCashMargin(String cashMargin) {
    this.cashMargin = cashMargin;
  }

  @Override
  public void encode(ByteBuf byteBuf) {
    byteBuf.writeLongLE(this.stopPx);
    byteBuf.writeLongLE(this.minQty);
    byteBuf.writeShortLE(this.maxPriceLevels);
    writeFixedString(byteBuf, this.timeInForce, 1);
    writeFixedString(byteBuf, this.cashMargin, 1);
  }

  @Override
  public void decode(ByteBuf byteBuf) {
    this.stopPx = byteBuf.readLongLE();
    this.minQty = byteBuf.readLongLE();
    this.maxPriceLevels = byteBuf.readShortLE();
    this.timeInForce = readFixedString(byteBuf, 1);
    this.cashMargin = readFixedString(byteBuf, 1);
  }

  @Override
  public int hashCode() {
    return Objects.hash(stopPx, minQty, maxPriceLevels, timeInForce, cashMargin);
  }

  @Override
  public boolean equals(Object obj) {
    if (this == obj) {
      return true;
    }
    if (null == obj || getClass() != obj.getClass()) {
      return false;
    }
    ConfirmExtend010 orther_ = (ConfirmExtend010) obj;
    return Objects.equals(stopPx, orther_.stopPx)
        && Objects.equals(minQty, orther_.minQty)
        && Objects.equals(maxPriceLevels, orther_.maxPriceLevels)
        && Objects.equals(timeInForce, orther_.timeInForce)
        && Objects.equals(cashMargin, orther_.cashMargin);
  }

  @Override
  public String toString() {
    return ""ConfirmExtend010 [""
        + ""stopPx=""
        + this.stopPx
        + "", minQty=""
        + this.minQty
        + "", maxPriceLevels=""
        + this.maxPriceLevels
        + "", timeInForce=""
        + this.timeInForce
        + "", cashMargin=""
        + this.cashMargin
        + ""]"";
  }
}
".

(* bjse-bin/src/main/java/com/finproto/bjse/trade/messages/ConfirmExtend040.java *)
Definition text_bjse_ConfirmExtend040 : text :=
"// Code generated by fin-protoc. DO NOT EDIT.
package com.finproto.bjse.trade.messages;

import com.finproto.codec.BinaryCodec;
import io.netty.buffer.ByteBuf;
import java.util.Objects;

public class ConfirmExtend040 implements BinaryCodec {
  private long stopPx;
  private long minQty;
  private short maxPriceLevels;
  private String timeInForce;
  private String cashMargin;

  public long getStopPx() {
    return this.stopPx;
  }

  public void setStopPx(long stopPx) {
    this.stopPx = stopPx;
  }

  public long getMinQty() {
    return this.minQty;
  }

  public void setMinQty(long minQty) {
    this.minQty = minQty;
  }

  public short getMaxPriceLevels() {
    return this.maxPriceLevels;
  }

  public void setMaxPriceLevels(short maxPriceLevels) {
    this.maxPriceLevels = maxPriceLevels;
  }

  public String getTimeInForce() {
    return this.timeInForce;
  }

  public void setTimeInForce(String timeInForce) {
    this.timeInForce = timeInForce;
  }

  public String getCashMargin() {
    return this.cashMargin;
  }

  public void setCashMargin(String cashMargin) {
    this.cashMargin = cashMargin;
  }

  @Override
  public void encode(ByteBuf byteBuf) {
    byteBuf.writeLongLE(this.stopPx);
    byteBuf.writeLongLE(this.minQty);
    byteBuf.writeShortLE(this.maxPriceLevels);
    writeFixedString(byteBuf, this.timeInForce, 1);
    writeFixedString(byteBuf, this.cashMargin, 1);
  }

  @Override
  public void decode(ByteBuf byteBuf) {
    this.stopPx = byteBuf.readLongLE();
    this.minQty = byteBuf.readLongLE();
    this.maxPriceLevels = byteBuf.readShortLE();
    this.timeInForce = readFixedString(byteBuf, 1);
    this.cashMargin = readFixedString(byteBuf, 1);
  }

  @Override
  public int hashCode() {
    return Objects.hash(stopPx, minQty, maxPriceLevels, timeInForce, cashMargin);
  }

  @Override
  public boolean equals(Object obj) {
    if (this == obj) {
      return true;
    }
    if (null == obj || getClass() != obj.getClass()) {
      return false;
    }
    ConfirmExtend040 orther_ = (ConfirmExtend040) obj;
    return Objects.equals(stopPx, orther_.stopPx)
        && Objects.equals(minQty, orther_.minQty)
        && Objects.equals(maxPriceLevels, orther_.maxPriceLevels)
        && Objects.equals(timeInForce, orther_.timeInForce)
        && Objects.equals(cashMargin, orther_.cashMargin);
  }

  @Override
  public String toString() {
    return ""ConfirmExtend040 [""
        + ""stopPx=""
        + this.stopPx
        + "", minQty=""
        + this.minQty
        + "", maxPriceLevels=""
        + this.maxPriceLevels
        + "", timeInForce=""
        + this.timeInForce
        + "", cashMargin=""
        + this.cashMargin
        + ""]"";
  }
}
".

(* bjse-bin/src/main/java/com/finproto/bjse/trade/messages/ConfirmExtend041.java *)
Definition text_bjse_ConfirmExtend041 : text :=
"// Code generated by fin-protoc. DO NOT EDIT.
package com.finproto.bjse.trade.messages;

import com.finproto.codec.BinaryCodec;
import io.netty.buffer.ByteBuf;

public class ConfirmExtend041 implements BinaryCodec {

  @Override
  public void encode(ByteBuf byteBuf) {}

  @Override
  public void decode(ByteBuf byteBuf) {}

  @Override
  public int hashCode() {
    return this.hashCode();
  }

  @Override
  public boolean equals(Object obj) {
    if (this == obj) {
      return true;
    }
    if (null == obj || getClass() != obj.getClass()) {
      return false;
    }
    return true;
  }

  @Override
  public String toString() {
    return ""ConfirmExtend041 []"";
  }
}
".

(* bjse-bin/src/main/java/com/finproto/bjse/trade/messages/ConfirmExtend042.java *)
Definition text_bjse_ConfirmExtend042 : text :=
"// Code generated by fin-protoc. DO NOT EDIT.
package com.finproto.bjse.trade.messages;

import com.finproto.codec.BinaryCodec;
import io.netty.buffer.ByteBuf;

public class ConfirmExtend042 implements BinaryCodec {

  @Override
  public void encode(ByteBuf byteBuf) {}

  @Override
  public void decode(ByteBuf byteBuf) {}

  @Override
  public int hashCode() {
    return this.hashCode();
  }

  @Override
  public boolean equals(Object obj) {
    if (this == obj) {
      return true;
    }
    if (null == obj || getClass() != obj.getClass()) {
      return false;
    }
    return true;
  }

  @Override
  public String toString() {
    return ""ConfirmExtend042 []"";
  }
}
".

(* bjse-bin/src/main/java/com/finproto/bjse/trade/messages/ConfirmExtend043.java *)
Definition text_bjse_ConfirmExtend043 : text :=
"// Code generated by fin-protoc. DO NOT EDIT.
package com.finproto.bjse.trade.messages;

import com.finproto.codec.BinaryCodec;
import io.netty.buffer.ByteBuf;

public class ConfirmExtend043 implements BinaryCodec {

  @Override
  public void encode(ByteBuf byteBuf) {}

  @Override
  public void decode(ByteBuf byteBuf) {}

  @Override
  public int hashCode() {
    return this.hashCode();
  }

  @Override
  public boolean equals(Object obj) {
    if (this == obj) {
      return true;
    }
    if (null == obj || getClass() != obj.getClass()) {
      return false;
    }
    return true;
  }

  @Override
  public String toString() {
    return ""ConfirmExtend043 []"";
  }
}
".

(* bjse-bin/src/main/java/com/finproto/bjse/trade/messages/ConfirmExtend044.java *)
Definition text_bjse_ConfirmExtend044 : text :=
"// Code generated by fin-protoc. DO NOT EDIT.
package com.finproto.bjse.trade.messages;

import com.finproto.codec.BinaryCodec;
import io.netty.buffer.ByteBuf;

public class ConfirmExtend044 implements BinaryCodec {

  @Override
  public void encode(ByteBuf byteBuf) {}

  @Override
  public void decode(ByteBuf byteBuf) {}

  @Override
  public int hashCode() {
    return this.hashCode();
  }

  @Override
  public boolean equals(Object obj) {
    if (this == obj) {
      return true;
    }
    if (null == obj || getClass() != obj.getClass()) {
      return false;
    }
    return true;
  }

  @Override
  public String toString() {
    return ""ConfirmExtend044 []"";
  }
}
".

(* bjse-bin/src/main/java/com/finproto/bjse/trade/messages/ConfirmExtend045.java *)
Definition text_bjse_ConfirmExtend045 : text :=
"// Code generated by fin-protoc. DO NOT EDIT.
package com.finproto.bjse.trade.messages;

import com.finproto.codec.BinaryCodec;
import io.netty.buffer.ByteBuf;

public class ConfirmExtend045 implements BinaryCodec {

  @Override
  public void encode(ByteBuf byteBuf) {}

  @Override
  public void decode(ByteBuf byteBuf) {}

  @Override
  public int hashCode() {
    return this.hashCode();
  }

  @Override
  public boolean equals(Object obj) {
    if (this == obj) {
      return true;
    }
    if (null == obj || getClass() != obj.getClass()) {
      return false;
    }
    return true;
  }

  @Override
  public String toString() {
    return ""ConfirmExtend045 []"";
  }
}
".

(* bjse-bin/src/main/java/com/finproto/bjse/trade/messages/ConfirmExtend050.java *)
Definition text_bjse_ConfirmExtend050 : text :=
"// Code generated by fin-protoc. DO NOT EDIT.
package com.finproto.bjse.trade.messages;

import com.finproto.codec.BinaryCodec;
import io.netty.buffer.ByteBuf;
import java.util.Objects;

public class ConfirmExtend050 implements BinaryCodec {
  private short expirationDays;
  private byte expirationType;
  private String shareProperty;

  public short getExpirationDays() {
    return this.expirationDays;
  }

  public void setExpirationDays(short expirationDays) {
    this.expirationDays = expirationDays;
  }

  public byte getExpirationType() {
    return this.expirationType;
  }

  public void setExpirationType(byte expirationType) {
    this.expirationType = expirationType;
  }

  public String getShareProperty() {
    return this.shareProperty;
  }

  public void setShareProperty(String shareProperty) {
    this.shareProperty = shareProperty;
  }

  @Override
  public void encode(ByteBuf byteBuf) {
    byteBuf.writeShortLE(this.expirationDays);
    byteBuf.writeByte(this.expirationType);
    writeFixedString(byteBuf, this.shareProperty, 2);
  }

  @Override
  public void decode(ByteBuf byteBuf) {
    this.expirationDays = byteBuf.readShortLE();
    this.expirationType = byteBuf.readByte();
    this.shareProperty = readFixedString(byteBuf, 2);
  }

  @Override
  public int hashCode() {
    return Objects.hash(expirationDays, expirationType, shareProperty);
  }

  @Override
  public boolean equals(Object obj) {
    if (this == obj) {
      return true;
    }
    if (null == obj || getClass() != obj.getClass()) {
      return false;
    }
    ConfirmExtend050 orther_ = (ConfirmExtend050) obj;
    return Objects.equals(expirationDays, orther_.expirationDays)
        && Objects.equals(expirationType, orther_.expirationType)
        && Objects.equals(shareProperty, orther_.shareProperty);
  }

  @Override
  public String toString() {
    return ""ConfirmExtend050 [""
        + ""expirationDays=""
        + this.expirationDays
        + "", expirationType=""
        + this.expirationType
        + "", shareProperty=""
        + this.shareProperty
        + ""]"";
  }
}
".

(* bjse-bin/src/main/java/com/finproto/bjse/trade/messages/ExecutionConfirm.java *)
Definition text_bjse_ExecutionConfirm : text :=
"// Code generated by fin-protoc. DO NOT EDIT.
package com.finproto.bjse.trade.messages;

import com.finproto.codec.BinaryCodec;
import io.netty.buffer.ByteBuf;
import java.util.HashMap;
import java.util.Map;
import java.util.Objects;
import java.util.function.Supplier;

public class ExecutionConfirm implements BinaryCodec {
  private int partitionNo;
  private long reportIndex;
  private String applId;
  private String reportingPbuid;
  private String submittingPbuid;
  private String securityId;
  private String securityIdsource;
  private short ownerType;
  private String clearingFirm;
  private long transactTime;
  private String userInfo;
  private String orderId;
  private String clOrdId;
  private String origClOrdId;
  private String execId;
  private String execType;
  private String ordStatus;
  private short ordRejReason;
  private long leavesQty;
  private long cumQty;
  private String side;
  private String ordType;
  private long orderQty;
  private long price;
  private String accountId;
  private String branchId;
  private String orderRestrictions;
  private BinaryCodec applExtend;

  public int getPartitionNo() {
    return this.partitionNo;
  }

  public void setPartitionNo(int partitionNo) {
    this.partitionNo = partitionNo;
  }

  public long getReportIndex() {
    return this.reportIndex;
  }

  public void setReportIndex(long reportIndex) {
    this.reportIndex = reportIndex;
  }

  public String getApplId() {
    return this.applId;
  }

  public void setApplId(String applId) {
    this.applId = applId;
  }

  public String getReportingPbuid() {
    return this.reportingPbuid;
  }

  public void setReportingPbuid(String reportingPbuid) {
    this.reportingPbuid = reportingPbuid;
  }

  public String getSubmittingPbuid() {
    return this.submittingPbuid;
  }

  public void setSubmittingPbuid(String submittingPbuid) {
    this.submittingPbuid = submittingPbuid;
  }

  public String getSecurityId() {
    return this.securityId;
  }

  public void setSecurityId(String securityId) {
    this.securityId = securityId;
  }

  public String getSecurityIdsource() {
    return this.securityIdsource;
  }

  public void setSecurityIdsource(String securityIdsource) {
    this.securityIdsource = securityIdsource;
  }

  public short getOwnerType() {
    return this.ownerType;
  }

  public void setOwnerType(short ownerType) {
    this.ownerType = ownerType;
  }

  public String getClearingFirm() {
    return this.clearingFirm;
  }

  public void setClearingFirm(String clearingFirm) {
    this.clearingFirm = clearingFirm;
  }

  public long getTransactTime() {
    return this.transactTime;
  }

  public void setTransactTime(long transactTime) {
    this.transactTime = transactTime;
  }

  public String getUserInfo() {
    return this.userInfo;
  }

  public void setUserInfo(String userInfo) {
    this.userInfo = userInfo;
  }

  public String getOrderId() {
    return this.orderId;
  }

  public void setOrderId(String orderId) {
    this.orderId = orderId;
  }

  public String getClOrdId() {
    return this.clOrdId;
  }

  public void setClOrdId(String clOrdId) {
    this.clOrdId = clOrdId;
  }

  public String getOrigClOrdId() {
    return this.origClOrdId;
  }

  public void setOrigClOrdId(String origClOrdId) {
    this.origClOrdId = origClOrdId;
  }

  public String getExecId() {
    return this.execId;
  }

  public void setExecId(String execId) {
    this.execId = execId;
  }

  public String getExecType() {
    return this.execType;
  }

  public void setExecType(String execType) {
    this.execType = execType;
  }

  public String getOrdStatus() {
    return this.ordStatus;
  }

  public void setOrdStatus(String ordStatus) {
    this.ordStatus = ordStatus;
  }

  public short getOrdRejReason() {
    return this.ordRejReason;
  }

  public void setOrdRejReason(short ordRejReason) {
    this.ordRejReason = ordRejReason;
  }

  public long getLeavesQty() {
    return this.leavesQty;
  }

  public void setLeavesQty(long leavesQty) {
    this.leavesQty = leavesQty;
  }

  public long getCumQty() {
    return this.cumQty;
  }

  public void setCumQty(long cumQty) {
    this.cumQty = cumQty;
  }

  public String getSide() {
    return this.side;
  }

  public void setSide(String side) {
    this.side = side;
  }

  public String getOrdType() {
    return this.ordType;
  }

  public void setOrdType(String ordType) {
    this.ordType = ordType;
  }

  public long getOrderQty() {
    return this.orderQty;
  }

  public void setOrderQty(long orderQty) {
    this.orderQty = orderQty;
  }

  public long getPrice() {
    return this.price;
  }

  public void setPrice(long price) {
    this.price = price;
  }

  public String getAccountId() {
    return this.accountId;
  }

  public void setAccountId(String accountId) {
    this.accountId = accountId;
  }

  public String getBranchId() {
    return this.branchId;
  }

  public void setBranchId(String branchId) {
    this.branchId = branchId;
  }

  public String getOrderRestrictions() {
    return this.orderRestrictions;
  }

  public void setOrderRestrictions(String orderRestrictions) {
    this.orderRestrictions = orderRestrictions;
  }

  public BinaryCodec getApplExtend() {
    return this.applExtend;
  }

  public void setApplExtend(BinaryCodec applExtend) {
    this.applExtend = applExtend;
  }

  @Override
  public void encode(ByteBuf byteBuf) {
    byteBuf.writeIntLE(this.partitionNo);
    byteBuf.writeLongLE(this.reportIndex);
    writeFixedString(byteBuf, this.applId, 3);
    writeFixedString(byteBuf, this.reportingPbuid, 6);
    writeFixedString(byteBuf, this.submittingPbuid, 6);
    writeFixedString(byteBuf, this.securityId, 8);
    writeFixedString(byteBuf, this.securityIdsource, 4);
    byteBuf.writeShortLE(this.ownerType);
    writeFixedString(byteBuf, this.clearingFirm, 2);
    byteBuf.writeLongLE(this.transactTime);
    writeFixedString(byteBuf, this.userInfo, 32);
    writeFixedString(byteBuf, this.orderId, 16);
    writeFixedString(byteBuf, this.clOrdId, 10);
    writeFixedString(byteBuf, this.origClOrdId, 10);
    writeFixedString(byteBuf, this.execId, 16);
    writeFixedString(byteBuf, this.execType, 1);
    writeFixedString(byteBuf, this.ordStatus, 1);
    byteBuf.writeShortLE(this.ordRejReason);
    byteBuf.writeLongLE(this.leavesQty);
    byteBuf.writeLongLE(this.cumQty);
    writeFixedString(byteBuf, this.side, 1);
    writeFixedString(byteBuf, this.ordType, 1);
    byteBuf.writeLongLE(this.orderQty);
    byteBuf.writeLongLE(this.price);
    writeFixedString(byteBuf, this.accountId, 10);
    writeFixedString(byteBuf, this.branchId, 2);
    writeFixedString(byteBuf, this.orderRestrictions, 4);
    if (null != this.applExtend) {
      this.applExtend.encode(byteBuf);
    }
  }

  @Override
  public void decode(ByteBuf byteBuf) {
    this.partitionNo = byteBuf.readIntLE();
    this.reportIndex = byteBuf.readLongLE();
    this.applId = readFixedString(byteBuf, 3);
    this.reportingPbuid = readFixedString(byteBuf, 6);
    this.submittingPbuid = readFixedString(byteBuf, 6);
    this.securityId = readFixedString(byteBuf, 8);
    this.securityIdsource = readFixedString(byteBuf, 4);
    this.ownerType = byteBuf.readShortLE();
    this.clearingFirm = readFixedString(byteBuf, 2);
    this.transactTime = byteBuf.readLongLE();
    this.userInfo = readFixedString(byteBuf, 32);
    this.orderId = readFixedString(byteBuf, 16);
    this.clOrdId = readFixedString(byteBuf, 10);
    this.origClOrdId = readFixedString(byteBuf, 10);
    this.execId = readFixedString(byteBuf, 16);
    this.execType = readFixedString(byteBuf, 1);
    this.ordStatus = readFixedString(byteBuf, 1);
    this.ordRejReason = byteBuf.readShortLE();
    this.leavesQty = byteBuf.readLongLE();
    this.cumQty = byteBuf.readLongLE();
    this.side = readFixedString(byteBuf, 1);
    this.ordType = readFixedString(byteBuf, 1);
    this.orderQty = byteBuf.readLongLE();
    this.price = byteBuf.readLongLE();
    this.accountId = readFixedString(byteBuf, 10);
    this.branchId = readFixedString(byteBuf, 2);
    this.orderRestrictions = readFixedString(byteBuf, 4);
    this.applExtend = ApplExtendMessageFactory.getInstance().create(this.applId);
    this.applExtend.decode(byteBuf);
  }

  @Override
  public int hashCode() {
    return Objects.hash(
        partitionNo,
        reportIndex,
        applId,
        reportingPbuid,
        submittingPbuid,
        securityId,
        securityIdsource,
        ownerType,
        clearingFirm,
        transactTime,
        userInfo,
        orderId,
        clOrdId,
        origClOrdId,
        execId,
        execType,
        ordStatus,
        ordRejReason,
        leavesQty,
        cumQty,
        side,
        ordType,
        orderQty,
        price,
        accountId,
        branchId,
        orderRestrictions,
        applExtend);
  }

  @Override
  public boolean equals(Object obj) {
    if (this == obj) {
      return true;
    }
    if (null == obj || getClass() != obj.getClass()) {
      return false;
    }
    ExecutionConfirm orther_ = (ExecutionConfirm) obj;
    return Objects.equals(partitionNo, orther_.partitionNo)
        && Objects.equals(reportIndex, orther_.reportIndex)
        && Objects.equals(applId, orther_.applId)
        && Objects.equals(reportingPbuid, orther_.reportingPbuid)
        && Objects.equals(submittingPbuid, orther_.submittingPbuid)
        && Objects.equals(securityId, orther_.securityId)
        && Objects.equals(securityIdsource, orther_.securityIdsource)
        && Objects.equals(ownerType, orther_.ownerType)
        && Objects.equals(clearingFirm, orther_.clearingFirm)
        && Objects.equals(transactTime, orther_.transactTime)
        && Objects.equals(userInfo, orther_.userInfo)
        && Objects.equals(orderId, orther_.orderId)
        && Objects.equals(clOrdId, orther_.clOrdId)
        && Objects.equals(origClOrdId, orther_.origClOrdId)
        && Objects.equals(execId, orther_.execId)
        && Objects.equals(execType, orther_.execType)
        && Objects.equals(ordStatus, orther_.ordStatus)
        && Objects.equals(ordRejReason, orther_.ordRejReason)
        && Objects.equals(leavesQty, orther_.leavesQty)
        && Objects.equals(cumQty, orther_.cumQty)
        && Objects.equals(side, orther_.side)
        && Objects.equals(ordType, orther_.ordType)
        && Objects.equals(orderQty, orther_.orderQty)
        && Objects.equals(price, orther_.price)
        && Objects.equals(accountId, orther_.accountId)
        && Objects.equals(branchId, orther_.branchId)
        && Objects.equals(orderRestrictions, orther_.orderRestrictions)
        && Objects.equals(applExtend, orther_.applExtend);
  }

  @Override
  public String toString() {
    return ""ExecutionConfirm [""
        + ""partitionNo=""
        + this.partitionNo
        + "", reportIndex=""
        + this.reportIndex
        + "", applId=""
        + this.applId
        + "", reportingPbuid=""
        + this.reportingPbuid
        + "", submittingPbuid=""
        + this.submittingPbuid
        + "", securityId=""
        + this.securityId
        + "", securityIdsource=""
        + this.securityIdsource
        + "", ownerType=""
        + this.ownerType
        + "", clearingFirm=""
        + this.clearingFirm
        + "", transactTime=""
        + this.transactTime
        + "", userInfo=""
        + this.userInfo
        + "", orderId=""
        + this.orderId
        + "", clOrdId=""
        + this.clOrdId
        + "", origClOrdId=""
        + this.origClOrdId
        + "", execId=""
        + this.execId
        + "", execType=""
        + this.execType
        + "", ordStatus=""
        + this.ordStatus
        + "", ordRejReason=""
        + this.ordRejReason
        + "", leavesQty=""
        + this.leavesQty
        + "", cumQty=""
        + this.cumQty
        + "", side=""
        + this.side
        + "", ordType=""
        + this.ordType
        + "", orderQty=""
        + this.orderQty
        + "", price=""
        + this.price
        + "", accountId=""
        + this.accountId
        + "", branchId=""
        + this.branchId
        + "", orderRestrictions=""
        + this.orderRestrictions
        + "", applExtend=""
        + this.applExtend
        + ""]"";
  }

  public static enum ApplExtendMessageFactory {
    INSTANCE;
    private final Map<String, Supplier<BinaryCodec>> applExtendMap = new HashMap<>();

    static {
      getInstance().register(""010"", ConfirmExtend010::new);
      getInstance().register(""040"", ConfirmExtend040::new);
      getInstance().register(""041"", ConfirmExtend041::new);
      getInstance().register(""042"", ConfirmExtend042::new);
      getInstance().register(""043"", ConfirmExtend043::new);
      getInstance().register(""044"", ConfirmExtend044::new);
      getInstance().register(""045"", ConfirmExtend045::new);
      getInstance().register(""050"", ConfirmExtend050::new);
    }

    public BinaryCodec create(String applId) {
      Supplier<BinaryCodec> supplier = applExtendMap.get(applId);
      if (null == supplier) {
        throw new IllegalArgumentException(""Unsupported ApplID:"" + applId);
      }
      return supplier.get();
    }

    public void register(String applId, Supplier<BinaryCodec> supplier) {
      applExtendMap.put(applId, supplier);
    }

    public boolean remove(String applId) {
      return null != applExtendMap.remove(applId);
    }

    public static ApplExtendMessageFactory getInstance() {
      return INSTANCE;
    }
  }
}
".

(* bjse-bin/src/main/java/com/finproto/bjse/trade/messages/ExecutionReport.java *)
Definition text_bjse_ExecutionReport : text :=
"// Code generated by fin-protoc. DO NOT EDIT.
package com.finproto.bjse.trade.messages;

import com.finproto.codec.BinaryCodec;
import io.netty.buffer.ByteBuf;
import java.util.HashMap;
import java.util.Map;
import java.util.Objects;
import java.util.function.Supplier;

public class ExecutionReport implements BinaryCodec {
  private int partitionNo;
  private long reportIndex;
  private String applId;
  private String reportingPbuid;
  private String submittingPbuid;
  private String securityId;
  private String securityIdsource;
  private short ownerType;
  private String clearingFirm;
  private long transactTime;
  private String userInfo;
  private String orderId;
  private String clOrdId;
  private String execId;
  private String execType;
  private String ordStatus;
  private long lastPx;
  private long lastQty;
  private long leavesQty;
  private long cumQty;
  private String side;
  private String accountId;
  private String branchId;
  private BinaryCodec applExtend;

  public int getPartitionNo() {
    return this.partitionNo;
  }

  public void setPartitionNo(int partitionNo) {
    this.partitionNo = partitionNo;
  }

  public long getReportIndex() {
    return this.reportIndex;
  }

  public void setReportIndex(long reportIndex) {
    this.reportIndex = reportIndex;
  }

  public String getApplId() {
    return this.applId;
  }

  public void setApplId(String applId) {
    this.applId = applId;
  }

  public String getReportingPbuid() {
    return this.reportingPbuid;
  }

  public void setReportingPbuid(String reportingPbuid) {
    this.reportingPbuid = reportingPbuid;
  }

  public String getSubmittingPbuid() {
    return this.submittingPbuid;
  }

  public void setSubmittingPbuid(String submittingPbuid) {
    this.submittingPbuid = submittingPbuid;
  }

  public String getSecurityId() {
    return this.securityId;
  }

  public void setSecurityId(String securityId) {
    this.securityId = securityId;
  }

  public String getSecurityIdsource() {
    return this.securityIdsource;
  }

  public void setSecurityIdsource(String securityIdsource) {
    this.securityIdsource = securityIdsource;
  }

  public short getOwnerType() {
    return this.ownerType;
  }

  public void setOwnerType(short ownerType) {
    this.ownerType = ownerType;
  }

  public String getClearingFirm() {
    return this.clearingFirm;
  }

  public void setClearingFirm(String clearingFirm) {
    this.clearingFirm = clearingFirm;
  }

  public long getTransactTime() {
    return this.transactTime;
  }

  public void setTransactTime(long transactTime) {
    this.transactTime = transactTime;
  }

  public String getUserInfo() {
    return this.userInfo;
  }

  public void setUserInfo(String userInfo) {
    this.userInfo = userInfo;
  }

  public String getOrderId() {
    return this.orderId;
  }

  public void setOrderId(String orderId) {
    this.orderId = orderId;
  }

  public String getClOrdId() {
    return this.clOrdId;
  }

  public void setClOrdId(String clOrdId) {
    this.clOrdId = clOrdId;
  }

  public String getExecId() {
    return this.execId;
  }

  public void setExecId(String execId) {
    this.execId = execId;
  }

  public String getExecType() {
    return this.execType;
  }

  public void setExecType(String execType) {
    this.execType = execType;
  }

  public String getOrdStatus() {
    return this.ordStatus;
  }

  public void setOrdStatus(String ordStatus) {
    this.ordStatus = ordStatus;
  }

  public long getLastPx() {
    return this.lastPx;
  }

  public void setLastPx(long lastPx) {
    this.lastPx = lastPx;
  }

  public long getLastQty() {
    return this.lastQty;
  }

  public void setLastQty(long lastQty) {
    this.lastQty = lastQty;
  }

  public long getLeavesQty() {
    return this.leavesQty;
  }

  public void setLeavesQty(long leavesQty) {
    this.leavesQty = leavesQty;
  }

  public long getCumQty() {
    return this.cumQty;
  }

  public void setCumQty(long cumQty) {
    this.cumQty = cumQty;
  }

  public String getSide() {
    return this.side;
  }

  public void setSide(String side) {
    this.side = side;
  }

  public String getAccountId() {
    return this.accountId;
  }

  public void setAccountId(String accountId) {
    this.accountId = accountId;
  }

  public String getBranchId() {
    return this.branchId;
  }

  public void setBranchId(String branchId) {
    this.branchId = branchId;
  }

  public BinaryCodec getApplExtend() {
    return this.applExtend;
  }

  public void setApplExtend(BinaryCodec applExtend) {
    this.applExtend = applExtend;
  }

  @Override
  public void encode(ByteBuf byteBuf) {
    byteBuf.writeIntLE(this.partitionNo);
    byteBuf.writeLongLE(this.reportIndex);
    writeFixedString(byteBuf, this.applId, 3);
    writeFixedString(byteBuf, this.reportingPbuid, 6);
    writeFixedString(byteBuf, this.submittingPbuid, 6);
    writeFixedString(byteBuf, this.securityId, 8);
    writeFixedString(byteBuf, this.securityIdsource, 4);
    byteBuf.writeShortLE(this.ownerType);
    writeFixedString(byteBuf, this.clearingFirm, 2);
    byteBuf.writeLongLE(this.transactTime);
    writeFixedString(byteBuf, this.userInfo, 32);
    writeFixedString(byteBuf, this.orderId, 16);
    writeFixedString(byteBuf, this.clOrdId, 10);
    writeFixedString(byteBuf, this.execId, 16);
    writeFixedString(byteBuf, this.execType, 1);
    writeFixedString(byteBuf, this.ordStatus, 1);
    byteBuf.writeLongLE(this.lastPx);
    byteBuf.writeLongLE(this.lastQty);
    byteBuf.writeLongLE(this.leavesQty);
    byteBuf.writeLongLE(this.cumQty);
    writeFixedString(byteBuf, this.side, 1);
    writeFixedString(byteBuf, this.accountId, 10);
    writeFixedString(byteBuf, this.branchId, 2);
    if (null != this.applExtend) {
      this.applExtend.encode(byteBuf);
    }
  }

  @Override
  public void decode(ByteBuf byteBuf) {
    this.partitionNo = byteBuf.readIntLE();
    this.reportIndex = byteBuf.readLongLE();
    this.applId = readFixedString(byteBuf, 3);
    this.reportingPbuid = readFixedString(byteBuf, 6);
    this.submittingPbuid = readFixedString(byteBuf, 6);
    this.securityId = readFixedString(byteBuf, 8);
    this.securityIdsource = readFixedString(byteBuf, 4);
    this.ownerType = byteBuf.readShortLE();
    this.clearingFirm = readFixedString(byteBuf, 2);
    this.transactTime = byteBuf.readLongLE();
    this.userInfo = readFixedString(byteBuf, 32);
    this.orderId = readFixedString(byteBuf, 16);
    this.clOrdId = readFixedString(byteBuf, 10);
    this.execId = readFixedString(byteBuf, 16);
    this.execType = readFixedString(byteBuf, 1);
    this.ordStatus = readFixedString(byteBuf, 1);
    this.lastPx = byteBuf.readLongLE();
    this.lastQty = byteBuf.readLongLE();
    this.leavesQty = byteBuf.readLongLE();
    this.cumQty = byteBuf.readLongLE();
    this.side = readFixedString(byteBuf, 1);
    this.accountId = readFixedString(byteBuf, 10);
    this.branchId = readFixedString(byteBuf, 2);
    this.applExtend = ApplExtendMessageFactory.getInstance().create(this.applId);
    this.applExtend.decode(byteBuf);
  }

  @Override
  public int hashCode() {
    return Objects.hash(
        partitionNo,
        reportIndex,
        applId,
        reportingPbuid,
        submittingPbuid,
        securityId,
        securityIdsource,
        ownerType,
        clearingFirm,
        transactTime,
        userInfo,
        orderId,
        clOrdId,
        execId,
        execType,
        ordStatus,
        lastPx,
        lastQty,
        leavesQty,
        cumQty,
        side,
        accountId,
        branchId,
        applExtend);
  }

  @Override
  public boolean equals(Object obj) {
    if (this == obj) {
      return true;
    }
    if (null == obj || getClass() != obj.getClass()) {
      return false;
    }
    ExecutionReport orther_ = (ExecutionReport) obj;
    return Objects.equals(partitionNo, orther_.partitionNo)
        && Objects.equals(reportIndex, orther_.reportIndex)
        && Objects.equals(applId, orther_.applId)
        && Objects.equals(reportingPbuid, orther_.reportingPbuid)
        && Objects.equals(submittingPbuid, orther_.submittingPbuid)
        && Objects.equals(securityId, orther_.securityId)
        && Objects.equals(securityIdsource, orther_.securityIdsource)
        && Objects.equals(ownerType, orther_.ownerType)
        && Objects.equals(clearingFirm, orther_.clearingFirm)
        && Objects.equals(transactTime, orther_.transactTime)
        && Objects.equals(userInfo, orther_.userInfo)
        && Objects.equals(orderId, orther_.orderId)
        && Objects.equals(clOrdId, orther_.clOrdId)
        && Objects.equals(execId, orther_.execId)
        && Objects.equals(execType, orther_.execType)
        && Objects.equals(ordStatus, orther_.ordStatus)
        && Objects.equals(lastPx, orther_.lastPx)
        && Objects.equals(lastQty, orther_.lastQty)
        && Objects.equals(leavesQty, orther_.leavesQty)
        && Objects.equals(cumQty, orther_.cumQty)
        && Objects.equals(side, orther_.side)
        && Objects.equals(accountId, orther_.accountId)
        && Objects.equals(branchId, orther_.branchId)
        && Objects.equals(applExtend, orther_.applExtend);
  }

  @Override
  public String toString() {
    return ""ExecutionReport [""
        + ""partitionNo=""
        + this.partitionNo
        + "", reportIndex=""
        + this.reportIndex
        + "", applId=""
        + this.applId
        + "", reportingPbuid=""
        + this.reportingPbuid
        + "", submittingPbuid=""
        + this.submittingPbuid
        + "", securityId=""
        + this.securityId
        + "", securityIdsource=""
        + this.securityIdsource
        + "", ownerType=""
        + this.ownerType
        + "", clearingFirm=""
        + this.clearingFirm
        + "", transactTime=""
        + this.transactTime
        + "", userInfo=""
        + this.userInfo
        + "", orderId=""
        + this.orderId
        + "", clOrdId=""
        + this.clOrdId
        + "", execId=""
        + this.execId
        + "", execType=""
        + this.execType
        + "", ordStatus=""
        + this.ordStatus
        + "", lastPx=""
        + this.lastPx
        + "", lastQty=""
        + this.lastQty
        + "", leavesQty=""
        + this.leavesQty
        + "", cumQty=""
        + this.cumQty
        + "", side=""
        + this.side
        + "", accountId=""
        + this.accountId
        + "", branchId=""
        + this.branchId
        + "", applExtend=""
        + this.applExtend
        + ""]"";
  }

  public static enum ApplExtendMessageFactory {
    INSTANCE;
    private final Map<String, Supplier<BinaryCodec>> applExtendMap = new HashMap<>();

    static {
      getInstance().register(""010"", ReportExtend010::new);
      getInstance().register(""040"", ReportExtend040::new);
      getInstance().register(""050"", ReportExtend050::new);
    }

    public BinaryCodec create(String applId) {
      Supplier<BinaryCodec> supplier = applExtendMap.get(applId);
      if (null == supplier) {
        throw new IllegalArgumentException(""Unsupported ApplID:"" + applId);
      }
      return supplier.get();
    }

    public void register(String applId, Supplier<BinaryCodec> supplier) {
      applExtendMap.put(applId, supplier);
    }

    public boolean remove(String applId) {
      return null != applExtendMap.remove(applId);
    }

    public static ApplExtendMessageFactory getInstance() {
      return INSTANCE;
    }
  }
}
".

(* bjse-bin/src/main/java/com/finproto/bjse/trade/messages/Extend010.java *)
Definition text_bjse_Extend010 : text :=
"// Code generated by fin-protoc. DO NOT EDIT.
package com.finproto.bjse.trade.messages;

import com.finproto.codec.BinaryCodec;
import io.netty.buffer.ByteBuf;
import java.util.Objects;

public class Extend010 implements BinaryCodec {
  private long stopPx;
  private long minQty;
  private short maxPriceLevels;
  private byte timeInForce;
  private byte cashMargin;
  private byte settlType;
  private byte settlPeriod;

  public long getStopPx() {
    return this.stopPx;
  }

  public void setStopPx(long stopPx) {
    this.stopPx = stopPx;
  }

  public long getMinQty() {
    return this.minQty;
  }

  public void setMinQty(long minQty) {
    this.minQty = minQty;
  }

  public short getMaxPriceLevels() {
    return this.maxPriceLevels;
  }

  public void setMaxPriceLevels(short maxPriceLevels) {
    this.maxPriceLevels = maxPriceLevels;
  }

  public byte getTimeInForce() {
    return this.timeInForce;
  }

  public void setTimeInForce(byte timeInForce) {
    this.timeInForce = timeInForce;
  }

  public byte getCashMargin() {
    return this.cashMargin;
  }

  public void setCashMargin(byte cashMargin) {
    this.cashMargin = cashMargin;
  }

  public byte getSettlType() {
    return this.settlType;
  }

  public void setSettlType(byte settlType) {
    this.settlType = settlType;
  }

  public byte getSettlPeriod() {
    return this.settlPeriod;
  }

  public void setSettlPeriod(byte settlPeriod) {
    this.settlPeriod = settlPeriod;
  }

  @Override
  public void encode(ByteBuf byteBuf) {
    byteBuf.writeLongLE(this.stopPx);
    byteBuf.writeLongLE(this.minQty);
    byteBuf.writeShortLE(this.maxPriceLevels);
    byteBuf.writeByte(this.timeInForce);
    byteBuf.writeByte(this.cashMargin);
    byteBuf.writeByte(this.settlType);
    byteBuf.writeByte(this.settlPeriod);
  }

  @Override
  public void decode(ByteBuf byteBuf) {
    this.stopPx = byteBuf.readLongLE();
    this.minQty = byteBuf.readLongLE();
    this.maxPriceLevels = byteBuf.readShortLE();
    this.timeInForce = byteBuf.readByte();
    this.cashMargin = byteBuf.readByte();
    this.settlType = byteBuf.readByte();
    this.settlPeriod = byteBuf.readByte();
  }

  @Override
  public int hashCode() {
    return Objects.hash(
        stopPx, minQty, maxPriceLevels, timeInForce, cashMargin, settlType, settlPeriod);
  }

  @Override
  public boolean equals(Object obj) {
    if (this == obj) {
      return true;
    }
    if (null == obj || getClass() != obj.getClass()) {
      return false;
    }
    Extend010 orther_ = (Extend010) obj;
    return Objects.equals(stopPx, orther_.stopPx)
        && Objects.equals(minQty, orther_.minQty)
        && Objects.equals(maxPriceLevels, orther_.maxPriceLevels)
        && Objects.equals(timeInForce, orther_.timeInForce)
        && Objects.equals(cashMargin, orther_.cashMargin)
        && Objects.equals(settlType, orther_.settlType)
        && Objects.equals(settlPeriod, orther_.settlPeriod);
  }

  @Override
  public String toString() {
    return ""Extend010 [""
        + ""stopPx=""
        + this.stopPx
        + "", minQty=""
        + this.minQty
        + "", maxPriceLevels=""
        + this.maxPriceLevels
        + "", timeInForce=""
        + this.timeInForce
        + "", cashMargin=""
        + this.cashMargin
        + "", settlType=""
        + this.settlType
        + "", settlPeriod=""
        + this.settlPeriod
        + ""]"";
  }
}
".

(* bjse-bin/src/main/java/com/finproto/bjse/trade/messages/Extend040.java *)
Definition text_bjse_Extend040 : text :=
"// Code generated by fin-protoc. DO NOT EDIT.
package com.finproto.bjse.trade.messages;

import com.finproto.codec.BinaryCodec;
import io.netty.buffer.ByteBuf;
import java.util.Objects;

public class Extend040 implements BinaryCodec {
  private long stopPx;
  private long minQty;
  private short maxPriceLevels;
  private byte timeInForce;
  private byte cashMargin;

  public long getStopPx() {
    return this.stopPx;
  }

  public void setStopPx(long stopPx) {
    this.stopPx = stopPx;
  }

  public long getMinQty() {
    return this.minQty;
  }

  public void setMinQty(long minQty) {
    this.minQty = minQty;
  }

  public short getMaxPriceLevels() {
    return this.maxPriceLevels;
  }

  public void setMaxPriceLevels(short maxPriceLevels) {
    this.maxPriceLevels = maxPriceLevels;
  }

  public byte getTimeInForce() {
    return this.timeInForce;
  }

  public void setTimeInForce(byte timeInForce) {
    this.timeInForce = timeInForce;
  }

  public byte getCashMargin() {
    return this.cashMargin;
  }

  public void setCashMargin(byte cashMargin) {
    this.cashMargin = cashMargin;
  }

  @Override
  public void encode(ByteBuf byteBuf) {
    byteBuf.writeLongLE(this.stopPx);
    byteBuf.writeLongLE(this.minQty);
    byteBuf.writeShortLE(this.maxPriceLevels);
    byteBuf.writeByte(this.timeInForce);
    byteBuf.writeByte(this.cashMargin);
  }

  @Override
  public void decode(ByteBuf byteBuf) {
    this.stopPx = byteBuf.readLongLE();
    this.minQty = byteBuf.readLongLE();
    this.maxPriceLevels = byteBuf.readShortLE();
    this.timeInForce = byteBuf.readByte();
    this.cashMargin = byteBuf.readByte();
  }

  @Override
  public int hashCode() {
    return Objects.hash(stopPx, minQty, maxPriceLevels, timeInForce, cashMargin);
  }

  @Override
  public boolean equals(Object obj) {
    if (this == obj) {
      return true;
    }
    if (null == obj || getClass() != obj.getClass()) {
      return false;
    }
    Extend040 orther_ = (Extend040) obj;
    return Objects.equals(stopPx, orther_.stopPx)
        && Objects.equals(minQty, orther_.minQty)
        && Objects.equals(maxPriceLevels, orther_.maxPriceLevels)
        && Objects.equals(timeInForce, orther_.timeInForce)
        && Objects.equals(cashMargin, orther_.cashMargin);
  }

  @Override
  public String toString() {
    return ""Extend040 [""
        + ""stopPx=""
        + this.stopPx
        + "", minQty=""
        + this.minQty
        + "", maxPriceLevels=""
        + this.maxPriceLevels
        + "", timeInForce=""
        + this.timeInForce
        + "", cashMargin=""
        + this.cashMargin
        + ""]"";
  }
}
".

(* bjse-bin/src/main/java/com/finproto/bjse/trade/messages/Extend041.java *)
Definition text_bjse_Extend041 : text :=
"// Code generated by fin-protoc. DO NOT EDIT.
package com.finproto.bjse.trade.messages;

import com.finproto.codec.BinaryCodec;
import io.netty.buffer.ByteBuf;

public class Extend041 implements BinaryCodec {

  @Override
  public void encode(ByteBuf byteBuf) {}

  @Override
  public void decode(ByteBuf byteBuf) {}

  @Override
  public int hashCode() {
    return this.hashCode();
  }

  @Override
  public boolean equals(Object obj) {
    if (this == obj) {
      return true;
    }
    if (null == obj || getClass() != obj.getClass()) {
      return false;
    }
    return true;
  }

  @Override
  public String toString() {
    return ""Extend041 []"";
  }
}
".

(* bjse-bin/src/main/java/com/finproto/bjse/trade/messages/Extend042.java *)
Definition text_bjse_Extend042 : text :=
"// Code generated by fin-protoc. DO NOT EDIT.
package com.finproto.bjse.trade.messages;

import com.finproto.codec.BinaryCodec;
import io.netty.buffer.ByteBuf;

public class Extend042 implements BinaryCodec {

  @Override
  public void encode(ByteBuf byteBuf) {}

  @Override
  public void decode(ByteBuf byteBuf) {}

  @Override
  public int hashCode() {
    return this.hashCode();
  }

  @Override
  public boolean equals(Object obj) {
    if (this == obj) {
      return true;
    }
    if (null == obj || getClass() != obj.getClass()) {
      return false;
    }
    return true;
  }

  @Override
  public String toString() {
    return ""Extend042 []"";
  }
}
".

(* bjse-bin/src/main/java/com/finproto/bjse/trade/messages/Extend043.java *)
Definition text_bjse_Extend043 : text :=
"// Code generated by fin-protoc. DO NOT EDIT.
package com.finproto.bjse.trade.messages;

import com.finproto.codec.BinaryCodec;
import io.netty.buffer.ByteBuf;

public class Extend043 implements BinaryCodec {

  @Override
  public void encode(ByteBuf byteBuf) {}

  @Override
  public void decode(ByteBuf byteBuf) {}

  @Override
  public int hashCode() {
    return this.hashCode();
  }

  @Override
  public boolean equals(Object obj) {
    if (this == obj) {
      return true;
    }
    if (null == obj || getClass() != obj.getClass()) {
      return false;
    }
    return true;
  }

  @Override
  public String toString() {
    return ""Extend043 []"";
  }
}
".

(* bjse-bin/src/main/java/com/finproto/bjse/trade/messages/Extend044.java *)
Definition text_bjse_Extend044 : text :=
"// Code generated by fin-protoc. DO NOT EDIT.
package com.finproto.bjse.trade.messages;

import com.finproto.codec.BinaryCodec;
import io.netty.buffer.ByteBuf;

public class Extend044 implements BinaryCodec {

  @Override
  public void encode(ByteBuf byteBuf) {}

  @Override
  public void decode(ByteBuf byteBuf) {}

  @Override
  public int hashCode() {
    return this.hashCode();
  }

  @Override
  public boolean equals(Object obj) {
    if (this == obj) {
      return true;
    }
    if (null == obj || getClass() != obj.getClass()) {
      return false;
    }
    return true;
  }

  @Override
  public String toString() {
    return ""Extend044 []"";
  }
}
".

(* bjse-bin/src/main/java/com/finproto/bjse/trade/messages/Extend045.java *)
Definition text_bjse_Extend045 : text :=
"// Code generated by fin-protoc. DO NOT EDIT.
package com.finproto.bjse.trade.messages;

import com.finproto.codec.BinaryCodec;
import io.netty.buffer.ByteBuf;

public class Extend045 implements BinaryCodec {

  @Override
  public void encode(ByteBuf byteBuf) {}

  @Override
  public void decode(ByteBuf byteBuf) {}

  @Override
  public int hashCode() {
    return this.hashCode();
  }

  @Override
  public boolean equals(Object obj) {
    if (this == obj) {
      return true;
    }
    if (null == obj || getClass() != obj.getClass()) {
      return false;
    }
    return true;
  }

  @Override
  public String toString() {
    return ""Extend045 []"";
  }
}
".

(* bjse-bin/src/main/java/com/finproto/bjse/trade/messages/Extend050.java *)
Definition text_bjse_Extend050 : text :=
"// Code generated by fin-protoc. DO NOT EDIT.
package com.finproto.bjse.trade.messages;

import com.finproto.codec.BinaryCodec;
import io.netty.buffer.ByteBuf;
import java.util.Objects;

public class Extend050 implements BinaryCodec {
  private short expirationDays;
  private byte expirationType;
  private String shareProperty;

  public short getExpirationDays() {
    return this.expirationDays;
  }

  public void setExpirationDays(short expirationDays) {
    this.expirationDays = expirationDays;
  }

  public byte getExpirationType() {
    return this.expirationType;
  }

  public void setExpirationType(byte expirationType) {
    this.expirationType = expirationType;
  }

  public String getShareProperty() {
    return this.shareProperty;
  }

  public void setShareProperty(String shareProperty) {
    this.shareProperty = shareProperty;
  }

  @Override
  public void encode(ByteBuf byteBuf) {
    byteBuf.writeShortLE(this.expirationDays);
    byteBuf.writeByte(this.expirationType);
    writeFixedString(byteBuf, this.shareProperty, 2);
  }

  @Override
  public void decode(ByteBuf byteBuf) {
    this.expirationDays = byteBuf.readShortLE();
    this.expirationType = byteBuf.readByte();
    this.shareProperty = readFixedString(byteBuf, 2);
  }

  @Override
  public int hashCode() {
    return Objects.hash(expirationDays, expirationType, shareProperty);
  }

  @Override
  public boolean equals(Object obj) {
    if (this == obj) {
      return true;
    }
    if (null == obj || getClass() != obj.getClass()) {
      return false;
    }
    Extend050 orther_ = (Extend050) obj;
    return Objects.equals(expirationDays, orther_.expirationDays)
        && Objects.equals(expirationType, orther_.expirationType)
        && Objects.equals(shareProperty, orther_.shareProperty);
  }

  @Override
  public String toString() {
    return ""Extend050 [""
        + ""expirationDays=""
        + this.expirationDays
        + "", expirationType=""
        + this.expirationType
        + "", shareProperty=""
        + this.shareProperty
        + ""]"";
  }
}
".

(* bjse-bin/src/main/java/com/finproto/bjse/trade/messages/ExtendNewOrder010.java *)
Definition text_bjse_ExtendNewOrder010 : text :=
"// Code generated by fin-protoc. DO NOT EDIT.
package com.finproto.bjse.trade.messages;

import com.finproto.codec.BinaryCodec;
import io.netty.buffer.ByteBuf;
import java.util.Objects;

public class ExtendNewOrder010 implements BinaryCodec {
  private long stopPx;
  private long minQty;
  private short maxPriceLevels;
  private String timeInForce;
  private String cashMargin;
  private String settlType;
  private String settlPeriod;

  public long getStopPx() {
    return this.stopPx;
  }

  public void setStopPx(long stopPx) {
    this.stopPx = stopPx;
  }

  public long getMinQty() {
    return this.minQty;
  }

  public void setMinQty(long minQty) {
    this.minQty = minQty;
  }

  public short getMaxPriceLevels() {
    return this.maxPriceLevels;
  }

  public void setMaxPriceLevels(short maxPriceLevels) {
    this.maxPriceLevels = maxPriceLevels;
  }

  public String getTimeInForce() {
    return this.timeInForce;
  }

  public void setTimeInForce(String timeInForce) {
    this.timeInForce = timeInForce;
  }

  public String getCashMargin() {
    return this.cashMargin;
  }

  public void setCashMargin(String cashMargin) {
    this.cashMargin = cashMargin;
  }

  public String getSettlType() {
    return this.settlType;
  }

  public void setSettlType(String settlType) {
    this.settlType = settlType;
  }

  public String getSettlPeriod() {
    return this.settlPeriod;
  }

  public void setSettlPeriod(String settlPeriod) {
    this.settlPeriod = settlPeriod;
  }

  @Override
  public void encode(ByteBuf byteBuf) {
    byteBuf.writeLongLE(this.stopPx);
    byteBuf.writeLongLE(this.minQty);
    byteBuf.writeShortLE(this.maxPriceLevels);
    writeFixedString(byteBuf, this.timeInForce, 1);
    writeFixedString(byteBuf, this.cashMargin, 1);
    writeFixedString(byteBuf, this.settlType, 1);
    writeFixedString(byteBuf, this.settlPeriod, 1);
  }

  @Override
  public void decode(ByteBuf byteBuf) {
    this.stopPx = byteBuf.readLongLE();
    this.minQty = byteBuf.readLongLE();
    this.maxPriceLevels = byteBuf.readShortLE();
    this.timeInForce = readFixedString(byteBuf, 1);
    this.cashMargin = readFixedString(byteBuf, 1);
    this.settlType = readFixedString(byteBuf, 1);
    this.settlPeriod = readFixedString(byteBuf, 1);
  }

  @Override
  public int hashCode() {
    return Objects.hash(
        stopPx, minQty, maxPriceLevels, timeInForce, cashMargin, settlType, settlPeriod);
  }

  @Override
  public boolean equals(Object obj) {
    if (this == obj) {
      return true;
    }
    if (null == obj || getClass() != obj.getClass()) {
      return false;
    }
    ExtendNewOrder010 orther_ = (ExtendNewOrder010) obj;
    return Objects.equals(stopPx, orther_.stopPx)
        && Objects.equals(minQty, orther_.minQty)
        && Objects.equals(maxPriceLevels, orther_.maxPriceLevels)
        && Objects.equals(timeInForce, orther_.timeInForce)
        && Objects.equals(cashMargin, orther_.cashMargin)
        && Objects.equals(settlType, orther_.settlType)
        && Objects.equals(settlPeriod, orther_.settlPeriod);
  }

  @Override
  public String toString() {
    return ""ExtendNewOrder010 [""
        + ""stopPx=""
        + this.stopPx
        + "", minQty=""
        + this.minQty
        + "", maxPriceLevels=""
        + this.maxPriceLevels
        + "", timeInForce=""
        + this.timeInForce
        + "", cashMargin=""
        + this.cashMargin
        + "", settlType=""
        + this.settlType
        + "", settlPeriod=""
        + this.settlPeriod
        + ""]"";
  }
}
".

(* bjse-bin/src/main/java/com/finproto/bjse/trade/messages/ExtendNewOrder040.java *)
Definition text_bjse_ExtendNewOrder040 : text :=
"// Code generated by fin-protoc. DO NOT EDIT.
package com.finproto.bjse.trade.messages;

import com.finproto.codec.BinaryCodec;
import io.netty.buffer.ByteBuf;
import java.util.Objects;

public class ExtendNewOrder040 implements BinaryCodec {
  private long stopPx;
  private long minQty;
  private short maxPriceLevels;
  private String timeInForce;
  private String cashMargin;

  public long getStopPx() {
    return this.stopPx;
  }

  public void setStopPx(long stopPx) {
    this.stopPx = stopPx;
  }

  public long getMinQty() {
    return this.minQty;
  }

  public void setMinQty(long minQty) {
    this.minQty = minQty;
  }

  public short getMaxPriceLevels() {
    return this.maxPriceLevels;
  }

  public void setMaxPriceLevels(short maxPriceLevels) {
    this.maxPriceLevels = maxPriceLevels;
  }

  public String getTimeInForce() {
    return this.timeInForce;
  }

  public void setTimeInForce(String timeInForce) {
    this.timeInForce = timeInForce;
  }

  public String getCashMargin() {
    return this.cashMargin;
  }

  public void setCashMargin(String cashMargin) {
    this.cashMargin = cashMargin;
  }

  @Override
  public void encode(ByteBuf byteBuf) {
    byteBuf.writeLongLE(this.stopPx);
    byteBuf.writeLongLE(this.minQty);
    byteBuf.writeShortLE(this.maxPriceLevels);
    writeFixedString(byteBuf, this.timeInForce, 1);
    writeFixedString(byteBuf, this.cashMargin, 1);
  }

  @Override
  public void decode(ByteBuf byteBuf) {
    this.stopPx = byteBuf.readLongLE();
    this.minQty = byteBuf.readLongLE();
    this.maxPriceLevels = byteBuf.readShortLE();
    this.timeInForce = readFixedString(byteBuf, 1);
    this.cashMargin = readFixedString(byteBuf, 1);
  }

  @Override
  public int hashCode() {
    return Objects.hash(stopPx, minQty, maxPriceLevels, timeInForce, cashMargin);
  }

  @Override
  public boolean equals(Object obj) {
    if (this == obj) {
      return true;
    }
    if (null == obj || getClass() != obj.getClass()) {
      return false;
    }
    ExtendNewOrder040 orther_ = (ExtendNewOrder040) obj;
    return Objects.equals(stopPx, orther_.stopPx)
        && Objects.equals(minQty, orther_.minQty)
        && Objects.equals(maxPriceLevels, orther_.maxPriceLevels)
        && Objects.equals(timeInForce, orther_.timeInForce)
        && Objects.equals(cashMargin, orther_.cashMargin);
  }

  @Override
  public String toString() {
    return ""ExtendNewOrder040 [""
        + ""stopPx=""
        + this.stopPx
        + "", minQty=""
        + this.minQty
        + "", maxPriceLevels=""
        + this.maxPriceLevels
        + "", timeInForce=""
        + this.timeInForce
        + "", cashMargin=""
        + this.cashMargin
        + ""]"";
  }
}
".

(* bjse-bin/src/main/java/com/finproto/bjse/trade/messages/ExtendNewOrder041.java *)
Definition text_bjse_ExtendNewOrder041 : text :=
"// Code generated by fin-protoc. DO NOT EDIT.
package com.finproto.bjse.trade.messages;

import com.finproto.codec.BinaryCodec;
import io.netty.buffer.ByteBuf;

public class ExtendNewOrder041 implements BinaryCodec {

  @Override
  public void encode(ByteBuf byteBuf) {}

  @Override
  public void decode(ByteBuf byteBuf) {}

  @Override
  public int hashCode() {
    return this.hashCode();
  }

  @Override
  public boolean equals(Object obj) {
    if (this == obj) {
      return true;
    }
    if (null == obj || getClass() != obj.getClass()) {
      return false;
    }
    return true;
  }

  @Override
  public String toString() {
    return ""ExtendNewOrder041 []"";
  }
}
".

(* bjse-bin/src/main/java/com/finproto/bjse/trade/messages/ExtendNewOrder042.java *)
Definition text_bjse_ExtendNewOrder042 : text :=
"// Code generated by fin-protoc. DO NOT EDIT.
package com.finproto.bjse.trade.messages;

import com.finproto.codec.BinaryCodec;
import io.netty.buffer.ByteBuf;

public class ExtendNewOrder042 implements BinaryCodec {

  @Override
  public void encode(ByteBuf byteBuf) {}

  @Override
  public void decode(ByteBuf byteBuf) {}

  @Override
  public int hashCode() {
    return this.hashCode();
  }

  @Override
  public boolean equals(Object obj) {
    if (this == obj) {
      return true;
    }
    if (null == obj || getClass() != obj.getClass()) {
      return false;
    }
    return true;
  }

  @Override
  public String toString() {
    return ""ExtendNewOrder042 []"";
  }
}
".

(* bjse-bin/src/main/java/com/finproto/bjse/trade/messages/ExtendNewOrder043.java *)
Definition text_bjse_ExtendNewOrder043 : text :=
"// Code generated by fin-protoc. DO NOT EDIT.
package com.finproto.bjse.trade.messages;

import com.finproto.codec.BinaryCodec;
import io.netty.buffer.ByteBuf;

public class ExtendNewOrder043 implements BinaryCodec {

  @Override
  public void encode(ByteBuf byteBuf) {}

  @Override
  public void decode(ByteBuf byteBuf) {}

  @Override
  public int hashCode() {
    return this.hashCode();
  }

  @Override
  public boolean equals(Object obj) {
    if (this == obj) {
      return true;
    }
    if (null == obj || getClass() != obj.getClass()) {
      return false;
    }
    return true;
  }

  @Override
  public String toString() {
    return ""ExtendNewOrder043 []"";
  }
}
".

(* bjse-bin/src/main/java/com/finproto/bjse/trade/messages/ExtendNewOrder044.java *)
Definition text_bjse_ExtendNewOrder044 : text :=
"// Code generated by fin-protoc. DO NOT EDIT.
package com.finproto.bjse.trade.messages;

import com.finproto.codec.BinaryCodec;
import io.netty.buffer.ByteBuf;

public class ExtendNewOrder044 implements BinaryCodec {

  @Override
  public void encode(ByteBuf byteBuf) {}

  @Override
  public void decode(ByteBuf byteBuf) {}

  @Override
  public int hashCode() {
    return this.hashCode();
  }

  @Override
  public boolean equals(Object obj) {
    if (this == obj) {
      return true;
    }
    if (null == obj || getClass() != obj.getClass()) {
      return false;
    }
    return true;
  }

  @Override
  public String toString() {
    return ""ExtendNewOrder044 []"";
  }
}
".

(* bjse-bin/src/main/java/com/finproto/bjse/trade/messages/ExtendNewOrder045.java *)
Definition text_bjse_ExtendNewOrder045 : text :=
"// Code generated by fin-protoc. DO NOT EDIT.
package com.finproto.bjse.trade.messages;

import com.finproto.codec.BinaryCodec;
import io.netty.buffer.ByteBuf;

public class ExtendNewOrder045 implements BinaryCodec {

  @Override
  public void encode(ByteBuf byteBuf) {}

  @Override
  public void decode(ByteBuf byteBuf) {}

  @Override
  public int hashCode() {
    return this.hashCode();
  }

  @Override
  public boolean equals(Object obj) {
    if (this == obj) {
      return true;
    }
    if (null == obj || getClass() != obj.getClass()) {
      return false;
    }
    return true;
  }

  @Override
  public String toString() {
    return ""ExtendNewOrder045 []"";
  }
}
".

(* bjse-bin/src/main/java/com/finproto/bjse/trade/messages/ExtendNewOrder050.java *)
Definition text_bjse_ExtendNewOrder050 : text :=
"// Code generated by fin-protoc. DO NOT EDIT.
package com.finproto.bjse.trade.messages;

import com.finproto.codec.BinaryCodec;
import io.netty.buffer.ByteBuf;
import java.util.Objects;

public class ExtendNewOrder050 implements BinaryCodec {
  private short expirationDays;
  private byte expirationType;
  private String shareProperty;

  public short getExpirationDays() {
    return this.expirationDays;
  }

  public void setExpirationDays(short expirationDays) {
    this.expirationDays = expirationDays;
  }

  public byte getExpirationType() {
    return this.expirationType;
  }

  public void setExpirationType(byte expirationType) {
    this.expirationType = expirationType;
  }

  public String getShareProperty() {
    return this.shareProperty;
  }

  public void setShareProperty(String shareProperty) {
    this.shareProperty = shareProperty;
  }

  @Override
  public void encode(ByteBuf byteBuf) {
    byteBuf.writeShortLE(this.expirationDays);
    byteBuf.writeByte(this.expirationType);
    writeFixedString(byteBuf, this.shareProperty, 2);
  }

  @Override
  public void decode(ByteBuf byteBuf) {
    this.expirationDays = byteBuf.readShortLE();
    this.expirationType = byteBuf.readByte();
    this.shareProperty = readFixedString(byteBuf, 2);
  }

  @Override
  public int hashCode() {
    return Objects.hash(expirationDays, expirationType, shareProperty);
  }

  @Override
  public boolean equals(Object obj) {
    if (this == obj) {
      return true;
    }
    if (null == obj || getClass() != obj.getClass()) {
      return false;
    }
    ExtendNewOrder050 orther_ = (ExtendNewOrder050) obj;
    return Objects.equals(expirationDays, orther_.expirationDays)
        && Objects.equals(expirationType, orther_.expirationType)
        && Objects.equals(shareProperty, orther_.shareProperty);
  }

  @Override
  public String toString() {
    return ""ExtendNewOrder050 [""
        + ""expirationDays=""
        + this.expirationDays
        + "", expirationType=""
        + this.expirationType
        + "", shareProperty=""
        + this.shareProperty
        + ""]"";
  }
}
".

(* bjse-bin/src/main/java/com/finproto/bjse/trade/messages/Heartbeat.java *)
Definition text_bjse_Heartbeat : text :=
"// Code generated by fin-protoc. DO NOT EDIT.
package com.finproto.bjse.trade.messages;

import com.finproto.codec.BinaryCodec;
import io.netty.buffer.ByteBuf;

public class Heartbeat implements BinaryCodec {

  @Override
  public void encode(ByteBuf byteBuf) {}

  @Override
  public void decode(ByteBuf byteBuf) {}

  @Override
  public int hashCode() {
    return this.hashCode();
  }

  @Override
  public boolean equals(Object obj) {
    if (this == obj) {
      return true;
    }
    if (null == obj || getClass() != obj.getClass()) {
      return false;
    }
    return true;
  }

  @Override
  public String toString() {
    return ""Heartbeat []"";
  }
}
".

(* bjse-bin/src/main/java/com/finproto/bjse/trade/messages/Logon.java *)
Definition text_bjse_Logon : text :=
"// Code generated by fin-protoc. DO NOT EDIT.
package com.finproto.bjse.trade.messages;

import com.finproto.codec.BinaryCodec;
import io.netty.buffer.ByteBuf;
import java.util.Objects;

public class Logon implements BinaryCodec {
  private String senderCompId;
  private String targetCompId;
  private int heartBtInt;
  private String password;
  private String defaultApplVerId;

  public String getSenderCompId() {
    return this.senderCompId;
  }

  public void setSenderCompId(String senderCompId) {
    this.senderCompId = senderCompId;
  }

  public String getTargetCompId() {
    return this.targetCompId;
  }

  public void setTargetCompId(String targetCompId) {
    this.targetCompId = targetCompId;
  }

  public int getHeartBtInt() {
    return this.heartBtInt;
  }

  public void setHeartBtInt(int heartBtInt) {
    this.heartBtInt = heartBtInt;
  }

  public String getPassword() {
    return this.password;
  }

  public void setPassword(String password) {
    this.password = password;
  }

  public String getDefaultApplVerId() {
    return this.defaultApplVerId;
  }

  public void setDefaultApplVerId(String defaultApplVerId) {
    this.defaultApplVerId = defaultApplVerId;
  }

  @Override
  public void encode(ByteBuf byteBuf) {
    writeFixedString(byteBuf, this.senderCompId, 20);
    writeFixedString(byteBuf, this.targetCompId, 20);
    byteBuf.writeIntLE(this.heartBtInt);
    writeFixedString(byteBuf, this.password, 16);
    writeFixedString(byteBuf, this.defaultApplVerId, 32);
  }

  @Override
  public void decode(ByteBuf byteBuf) {
    this.senderCompId = readFixedString(byteBuf, 20);
    this.targetCompId = readFixedString(byteBuf, 20);
    this.heartBtInt = byteBuf.readIntLE();
    this.password = readFixedString(byteBuf, 16);
    this.defaultApplVerId = readFixedString(byteBuf, 32);
  }

  @Override
  public int hashCode() {
    return Objects.hash(senderCompId, targetCompId, heartBtInt, password, defaultApplVerId);
  }

  @Override
  public boolean equals(Object obj) {
    if (this == obj) {
      return true;
    }
    if (null == obj || getClass() != obj.getClass()) {
      return false;
    }
    Logon orther_ = (Logon) obj;
    return Objects.equals(senderCompId, orther_.senderCompId)
        && Objects.equals(targetCompId, orther_.targetCompId)
        && Objects.equals(heartBtInt, orther_.heartBtInt)
        && Objects.equals(password, orther_.password)
        && Objects.equals(defaultApplVerId, orther_.defaultApplVerId);
  }

  @Override
  public String toString() {
    return ""Logon [""
        + ""senderCompId=""
        + this.senderCompId
        + "", targetCompId=""
        + this.targetCompId
        + "", heartBtInt=""
        + this.heartBtInt
        + "", password=""
        + this.password
        + "", defaultApplVerId=""
        + this.defaultApplVerId
        + ""]"";
  }
}
".

(* bjse-bin/src/main/java/com/finproto/bjse/trade/messages/Logout.java *)
Definition text_bjse_Logout : text :=
"// Code generated by fin-protoc. DO NOT EDIT.
package com.finproto.bjse.trade.messages;

import com.finproto.codec.BinaryCodec;
import io.netty.buffer.ByteBuf;
import java.util.Objects;

public class Logout implements BinaryCodec {
  private int sessionStatus;
  private String text;

  public int getSessionStatus() {
    return this.sessionStatus;
  }

  public void setSessionStatus(int sessionStatus) {
    this.sessionStatus = sessionStatus;
  }

  public String getText() {
    return this.text;
  }

  public void setText(String text) {
    this.text = text;
  }

  @Override
  public void encode(ByteBuf byteBuf) {
    byteBuf.writeIntLE(this.sessionStatus);
    writeFixedString(byteBuf, this.text, 200);
  }

  @Override
  public void decode(ByteBuf byteBuf) {
    this.sessionStatus = byteBuf.readIntLE();
    this.text = readFixedString(byteBuf, 200);
  }

  @Override
  public int hashCode() {
    return Objects.hash(sessionStatus, text);
  }

  @Override
  public boolean equals(Object obj) {
    if (this == obj) {
      return true;
    }
    if (null == obj || getClass() != obj.getClass()) {
      return false;
    }
    Logout orther_ = (Logout) obj;
    return Objects.equals(sessionStatus, orther_.sessionStatus)
        && Objects.equals(text, orther_.text);
  }

  @Override
  public String toString() {
    return ""Logout ["" + ""sessionStatus="" + this.sessionStatus + "", text="" + this.text + ""]"";
  }
}
".

(* bjse-bin/src/main/java/com/finproto/bjse/trade/messages/NewOrder.java *)
Definition text_bjse_NewOrder : text :=
"// Code generated by fin-protoc. DO NOT EDIT.
package com.finproto.bjse.trade.messages;

import com.finproto.codec.BinaryCodec;
import io.netty.buffer.ByteBuf;
import java.util.HashMap;
import java.util.Map;
import java.util.Objects;
import java.util.function.Supplier;

public class NewOrder implements BinaryCodec {
  private String applId;
  private String submittingPbuid;
  private String securityId;
  private String securityIdsource;
  private short ownerType;
  private String clearingFirm;
  private long transactTime;
  private String userInfo;
  private String clOrdId;
  private String accountId;
  private String branchId;
  private String orderRestrictions;
  private String side;
  private String ordType;
  private long orderQty;
  private long price;
  private BinaryCodec applExtend;

  public String getApplId() {
    return this.applId;
  }

  public void setApplId(String applId) {
    this.applId = applId;
  }

  public String getSubmittingPbuid() {
    return this.submittingPbuid;
  }

  public void setSubmittingPbuid(String submittingPbuid) {
    this.submittingPbuid = submittingPbuid;
  }

  public String getSecurityId() {
    return this.securityId;
  }

  public void setSecurityId(String securityId) {
    this.securityId = securityId;
  }

  public String getSecurityIdsource() {
    return this.securityIdsource;
  }

  public void setSecurityIdsource(String securityIdsource) {
    this.securityIdsource = securityIdsource;
  }

  public short getOwnerType() {
    return this.ownerType;
  }

  public void setOwnerType(short ownerType) {
    this.ownerType = ownerType;
  }

  public String getClearingFirm() {
    return this.clearingFirm;
  }

  public void setClearingFirm(String clearingFirm) {
    this.clearingFirm = clearingFirm;
  }

  public long getTransactTime() {
    return this.transactTime;
  }

  public void setTransactTime(long transactTime) {
    this.transactTime = transactTime;
  }

  public String getUserInfo() {
    return this.userInfo;
  }

  public void setUserInfo(String userInfo) {
    this.userInfo = userInfo;
  }

  public String getClOrdId() {
    return this.clOrdId;
  }

  public void setClOrdId(String clOrdId) {
    this.clOrdId = clOrdId;
  }

  public String getAccountId() {
    return this.accountId;
  }

  public void setAccountId(String accountId) {
    this.accountId = accountId;
  }

  public String getBranchId() {
    return this.branchId;
  }

  public void setBranchId(String branchId) {
    this.branchId = branchId;
  }

  public String getOrderRestrictions() {
    return this.orderRestrictions;
  }

  public void setOrderRestrictions(String orderRestrictions) {
    this.orderRestrictions = orderRestrictions;
  }

  public String getSide() {
    return this.side;
  }

  public void setSide(String side) {
    this.side = side;
  }

  public String getOrdType() {
    return this.ordType;
  }

  public void setOrdType(String ordType) {
    this.ordType = ordType;
  }

  public long getOrderQty() {
    return this.orderQty;
  }

  public void setOrderQty(long orderQty) {
    this.orderQty = orderQty;
  }

  public long getPrice() {
    return this.price;
  }

  public void setPrice(long price) {
    this.price = price;
  }

  public BinaryCodec getApplExtend() {
    return this.applExtend;
  }

  public void setApplExtend(BinaryCodec applExtend) {
    this.applExtend = applExtend;
  }

  @Override
  public void encode(ByteBuf byteBuf) {
    writeFixedString(byteBuf, this.applId, 3);
    writeFixedString(byteBuf, this.submittingPbuid, 6);
    writeFixedString(byteBuf, this.securityId, 8);
    writeFixedString(byteBuf, this.securityIdsource, 4);
    byteBuf.writeShortLE(this.ownerType);
    writeFixedString(byteBuf, this.clearingFirm, 2);
    byteBuf.writeLongLE(this.transactTime);
    writeFixedString(byteBuf, this.userInfo, 32);
    writeFixedString(byteBuf, this.clOrdId, 10);
    writeFixedString(byteBuf, this.accountId, 10);
    writeFixedString(byteBuf, this.branchId, 2);
    writeFixedString(byteBuf, this.orderRestrictions, 4);
    writeFixedString(byteBuf, this.side, 1);
    writeFixedString(byteBuf, this.ordType, 1);
    byteBuf.writeLongLE(this.orderQty);
    byteBuf.writeLongLE(this.price);
    if (null != this.applExtend) {
      this.applExtend.encode(byteBuf);
    }
  }

  @Override
  public void decode(ByteBuf byteBuf) {
    this.applId = readFixedString(byteBuf, 3);
    this.submittingPbuid = readFixedString(byteBuf, 6);
    this.securityId = readFixedString(byteBuf, 8);
    this.securityIdsource = readFixedString(byteBuf, 4);
    this.ownerType = byteBuf.readShortLE();
    this.clearingFirm = readFixedString(byteBuf, 2);
    this.transactTime = byteBuf.readLongLE();
    this.userInfo = readFixedString(byteBuf, 32);
    this.clOrdId = readFixedString(byteBuf, 10);
    this.accountId = readFixedString(byteBuf, 10);
    this.branchId = readFixedString(byteBuf, 2);
    this.orderRestrictions = readFixedString(byteBuf, 4);
    this.side = readFixedString(byteBuf, 1);
    this.ordType = readFixedString(byteBuf, 1);
    this.orderQty = byteBuf.readLongLE();
    this.price = byteBuf.readLongLE();
    this.applExtend = ApplExtendMessageFactory.getInstance().create(this.applId);
    this.applExtend.decode(byteBuf);
  }

  @Override
  public int hashCode() {
    return Objects.hash(
        applId,
        submittingPbuid,
        securityId,
        securityIdsource,
        ownerType,
        clearingFirm,
        transactTime,
        userInfo,
        clOrdId,
        accountId,
        branchId,
        orderRestrictions,
        side,
        ordType,
        orderQty,
        price,
        applExtend);
  }

  @Override
  public boolean equals(Object obj) {
    if (this == obj) {
      return true;
    }
    if (null == obj || getClass() != obj.getClass()) {
      return false;
    }
    NewOrder orther_ = (NewOrder) obj;
    return Objects.equals(applId, orther_.applId)
        && Objects.equals(submittingPbuid, orther_.submittingPbuid)
        && Objects.equals(securityId, orther_.securityId)
        && Objects.equals(securityIdsource, orther_.securityIdsource)
        && Objects.equals(ownerType, orther_.ownerType)
        && Objects.equals(clearingFirm, orther_.clearingFirm)
        && Objects.equals(transactTime, orther_.transactTime)
        && Objects.equals(userInfo, orther_.userInfo)
        && Objects.equals(clOrdId, orther_.clOrdId)
        && Objects.equals(accountId, orther_.accountId)
        && Objects.equals(branchId, orther_.branchId)
        && Objects.equals(orderRestrictions, orther_.orderRestrictions)
        && Objects.equals(side, orther_.side)
        && Objects.equals(ordType, orther_.ordType)
        && Objects.equals(orderQty, orther_.orderQty)
        && Objects.equals(price, orther_.price)
        && Objects.equals(applExtend, orther_.applExtend);
  }

  @Override
  public String toString() {
    return ""NewOrder [""
        + ""applId=""
        + this.applId
        + "", submittingPbuid=""
        + this.submittingPbuid
        + "", securityId=""
        + this.securityId
        + "", securityIdsource=""
        + this.securityIdsource
        + "", ownerType=""
        + this.ownerType
        + "", clearingFirm=""
        + this.clearingFirm
        + "", transactTime=""
        + this.transactTime
        + "", userInfo=""
        + this.userInfo
        + "", clOrdId=""
        + this.clOrdId
        + "", accountId=""
        + this.accountId
        + "", branchId=""
        + this.branchId
        + "", orderRestrictions=""
        + this.orderRestrictions
        + "", side=""
        + this.side
        + "", ordType=""
        + this.ordType
        + "", orderQty=""
        + this.orderQty
        + "", price=""
        + this.price
        + "", applExtend=""
        + this.applExtend
        + ""]"";
  }

  public static enum ApplExtendMessageFactory {
    INSTANCE;
    private final Map<String, Supplier<BinaryCodec>> applExtendMap = new HashMap<>();

    static {
      getInstance().register(""010"", ExtendNewOrder010::new);
      getInstance().register(""040"", ExtendNewOrder040::new);
      getInstance().register(""041"", ExtendNewOrder041::new);
      getInstance().register(""042"", ExtendNewOrder042::new);
      getInstance().register(""043"", ExtendNewOrder043::new);
      getInstance().register(""044"", ExtendNewOrder044::new);
      getInstance().register(""045"", ExtendNewOrder045::new);
      getInstance().register(""050"", ExtendNewOrder050::new);
    }

    public BinaryCodec create(String applId) {
      Supplier<BinaryCodec> supplier = applExtendMap.get(applId);
      if (null == supplier) {
        throw new IllegalArgumentException(""Unsupported ApplID:"" + applId);
      }
      return supplier.get();
    }

    public void register(String applId, Supplier<BinaryCodec> supplier) {
      applExtendMap.put(applId, supplier);
    }

    public boolean remove(String applId) {
      return null != applExtendMap.remove(applId);
    }

    public static ApplExtendMessageFactory getInstance() {
      return INSTANCE;
    }
  }
}
".

(* bjse-bin/src/main/java/com/finproto/bjse/trade/messages/OrderCancelRequest.java *)
Definition text_bjse_OrderCancelRequest : text :=
"// Code generated by fin-protoc. DO NOT EDIT.
package com.finproto.bjse.trade.messages;

import com.finproto.codec.BinaryCodec;
import io.netty.buffer.ByteBuf;
import java.util.Objects;

public class OrderCancelRequest implements BinaryCodec {
  private String applId;
  private String submittingPbuid;
  private String securityId;
  private String securityIdsource;
  private short ownerType;
  private String clearingFirm;
  private long transactTime;
  private String userInfo;
  private String clOrdId;
  private String origClOrdId;
  private String accountId;
  private String branchId;
  private String orderId;
  private long orderQty;

  public String getApplId() {
    return this.applId;
  }

  public void setApplId(String applId) {
    this.applId = applId;
  }

  public String getSubmittingPbuid() {
    return this.submittingPbuid;
  }

  public void setSubmittingPbuid(String submittingPbuid) {
    this.submittingPbuid = submittingPbuid;
  }

  public String getSecurityId() {
    return this.securityId;
  }

  public void setSecurityId(String securityId) {
    this.securityId = securityId;
  }

  public String getSecurityIdsource() {
    return this.securityIdsource;
  }

  public void setSecurityIdsource(String securityIdsource) {
    this.securityIdsource = securityIdsource;
  }

  public short getOwnerType() {
    return this.ownerType;
  }

  public void setOwnerType(short ownerType) {
    this.ownerType = ownerType;
  }

  public String getClearingFirm() {
    return this.clearingFirm;
  }

  public void setClearingFirm(String clearingFirm) {
    this.clearingFirm = clearingFirm;
  }

  public long getTransactTime() {
    return this.transactTime;
  }

  public void setTransactTime(long transactTime) {
    this.transactTime = transactTime;
  }

  public String getUserInfo() {
    return this.userInfo;
  }

  public void setUserInfo(String userInfo) {
    this.userInfo = userInfo;
  }

  public String getClOrdId() {
    return this.clOrdId;
  }

  public void setClOrdId(String clOrdId) {
    this.clOrdId = clOrdId;
  }

  public String getOrigClOrdId() {
    return this.origClOrdId;
  }

  public void setOrigClOrdId(String origClOrdId) {
    this.origClOrdId = origClOrdId;
  }

  public String getAccountId() {
    return this.accountId;
  }

  public void setAccountId(String accountId) {
    this.accountId = accountId;
  }

  public String getBranchId() {
    return this.branchId;
  }

  public void setBranchId(String branchId) {
    this.branchId = branchId;
  }

  public String getOrderId() {
    return this.orderId;
  }

  public void setOrderId(String orderId) {
    this.orderId = orderId;
  }

  public long getOrderQty() {
    return this.orderQty;
  }

  public void setOrderQty(long orderQty) {
    this.orderQty = orderQty;
  }

  @Override
  public void encode(ByteBuf byteBuf) {
    writeFixedString(byteBuf, this.applId, 3);
    writeFixedString(byteBuf, this.submittingPbuid, 6);
    writeFixedString(byteBuf, this.securityId, 8);
    writeFixedString(byteBuf, this.securityIdsource, 4);
    byteBuf.writeShortLE(this.ownerType);
    writeFixedString(byteBuf, this.clearingFirm, 2);
    byteBuf.writeLongLE(this.transactTime);
    writeFixedString(byteBuf, this.userInfo, 32);
    writeFixedString(byteBuf, this.clOrdId, 10);
    writeFixedString(byteBuf, this.origClOrdId, 10);
    writeFixedString(byteBuf, this.accountId, 10);
    writeFixedString(byteBuf, this.branchId, 2);
    writeFixedString(byteBuf, this.orderId, 16);
    byteBuf.writeLongLE(this.orderQty);
  }

  @Override
  public void decode(ByteBuf byteBuf) {
    this.applId = readFixedString(byteBuf, 3);
    this.submittingPbuid = readFixedString(byteBuf, 6);
    this.securityId = readFixedString(byteBuf, 8);
    this.securityIdsource = readFixedString(byteBuf, 4);
    this.ownerType = byteBuf.readShortLE();
    this.clearingFirm = readFixedString(byteBuf, 2);
    this.transactTime = byteBuf.readLongLE();
    this.userInfo = readFixedString(byteBuf, 32);
    this.clOrdId = readFixedString(byteBuf, 10);
    this.origClOrdId = readFixedString(byteBuf, 10);
    this.accountId = readFixedString(byteBuf, 10);
    this.branchId = readFixedString(byteBuf, 2);
    this.orderId = readFixedString(byteBuf, 16);
    this.orderQty = byteBuf.readLongLE();
  }

  @Override
  public int hashCode() {
    return Objects.hash(
        applId,
        submittingPbuid,
        securityId,
        securityIdsource,
        ownerType,
        clearingFirm,
        transactTime,
        userInfo,
        clOrdId,
        origClOrdId,
        accountId,
        branchId,
        orderId,
        orderQty);
  }

  @Override
  public boolean equals(Object obj) {
    if (this == obj) {
      return true;
    }
    if (null == obj || getClass() != obj.getClass()) {
      return false;
    }
    OrderCancelRequest orther_ = (OrderCancelRequest) obj;
    return Objects.equals(applId, orther_.applId)
        && Objects.equals(submittingPbuid, orther_.submittingPbuid)
        && Objects.equals(securityId, orther_.securityId)
        && Objects.equals(securityIdsource, orther_.securityIdsource)
        && Objects.equals(ownerType, orther_.ownerType)
        && Objects.equals(clearingFirm, orther_.clearingFirm)
        && Objects.equals(transactTime, orther_.transactTime)
        && Objects.equals(userInfo, orther_.userInfo)
        && Objects.equals(clOrdId, orther_.clOrdId)
        && Objects.equals(origClOrdId, orther_.origClOrdId)
        && Objects.equals(accountId, orther_.accountId)
        && Objects.equals(branchId, orther_.branchId)
        && Objects.equals(orderId, orther_.orderId)
        && Objects.equals(orderQty, orther_.orderQty);
  }

  @Override
  public String toString() {
    return ""OrderCancelRequest [""
        + ""applId=""
        + this.applId
        + "", submittingPbuid=""
        + this.submittingPbuid
        + "", securityId=""
        + this.securityId
        + "", securityIdsource=""
        + this.securityIdsource
        + "", ownerType=""
        + this.ownerType
        + "", clearingFirm=""
        + this.clearingFirm
        + "", transactTime=""
        + this.transactTime
        + "", userInfo=""
        + this.userInfo
        + "", clOrdId=""
        + this.clOrdId
        + "", origClOrdId=""
        + this.origClOrdId
        + "", accountId=""
        + this.accountId
        + "", branchId=""
        + this.branchId
        + "", orderId=""
        + this.orderId
        + "", orderQty=""
        + this.orderQty
        + ""]"";
  }
}
".

(* bjse-bin/src/main/java/com/finproto/bjse/trade/messages/PlatformInfo.java *)
Definition text_bjse_PlatformInfo : text :=
"// Code generated by fin-protoc. DO NOT EDIT.
package com.finproto.bjse.trade.messages;

import com.finproto.codec.BinaryCodec;
import io.netty.buffer.ByteBuf;
import java.util.ArrayList;
import java.util.List;
import java.util.Objects;

public class PlatformInfo implements BinaryCodec {
  private short platformId;
  private List<NoPartitions> noPartitions;

  public short getPlatformId() {
    return this.platformId;
  }

  public void setPlatformId(short platformId) {
    this.platformId = platformId;
  }

  public List<NoPartitions> getNoPartitions() {
    return this.noPartitions;
  }

  public void setNoPartitions(List<NoPartitions> noPartitions) {
    this.noPartitions = noPartitions;
  }

  @Override
  public void encode(ByteBuf byteBuf) {
    byteBuf.writeShortLE(this.platformId);
    if (null == this.noPartitions || this.noPartitions.size() == 0) {
      byteBuf.writeShort(0);
    } else {
      byteBuf.writeShortLE((short) this.noPartitions.size());
      for (int i = 0; i < this.noPartitions.size(); i++) {
        this.noPartitions.get(i).encode(byteBuf);
      }
    }
  }

  @Override
  public void decode(ByteBuf byteBuf) {
    this.platformId = byteBuf.readShortLE();
    short noPartitionsSize = byteBuf.readShortLE();
    if (noPartitionsSize > 0) {
      this.noPartitions = new ArrayList<>();
      for (int i = 0; i < noPartitionsSize; i++) {
        NoPartitions noPartitions_ = new NoPartitions();
        noPartitions_.decode(byteBuf);
        this.noPartitions.add(noPartitions_);
      }
    }
  }

  @Override
  public int hashCode() {
    return Objects.hash(platformId, noPartitions);
  }

  @Override
  public boolean equals(Object obj) {
    if (this == obj) {
      return true;
    }
    if (null == obj || getClass() != obj.getClass()) {
      return false;
    }
    PlatformInfo orther_ = (PlatformInfo) obj;
    return Objects.equals(platformId, orther_.platformId)
        && Objects.equals(noPartitions, orther_.noPartitions);
  }

  @Override
  public String toString() {
    return ""PlatformInfo [""
        + ""platformId=""
        + this.platformId
        + "", noPartitions=""
        + this.noPartitions
        + ""]"";
  }

  // Code generated by fin-protoc. DO NOT EDIT.
  public static class NoPartitions implements BinaryCodec {
    private int partitionNo;
    private String partitionName;

    public int getPartitionNo() {
      return this.partitionNo;
    }

    public void setPartitionNo(int partitionNo) {
      this.partitionNo = partitionNo;
    }

    public String getPartitionName() {
      return this.partitionName;
    }

    public void setPartitionName(String partitionName) {
      this.partitionName = partitionName;
    }

    @Override
    public void encode(ByteBuf byteBuf) {
      byteBuf.writeIntLE(this.partitionNo);
      writeFixedString(byteBuf, this.partitionName, 20);
    }

    @Override
    public void decode(ByteBuf byteBuf) {
      this.partitionNo = byteBuf.readIntLE();
      this.partitionName = readFixedString(byteBuf, 20);
    }

    @Override
    public int hashCode() {
      return Objects.hash(partitionNo, partitionName);
    }

    @Override
    public boolean equals(Object obj) {
      if (this == obj) {
        return true;
      }
      if (null == obj || getClass() != obj.getClass()) {
        return false;
      }
      NoPartitions orther_ = (NoPartitions) obj;
      return Objects.equals(partitionNo, orther_.partitionNo)
          && Objects.equals(partitionName, orther_.partitionName);
    }

    @Override
    public String toString() {
      return ""NoPartitions [""
          + ""partitionNo=""
          + this.partitionNo
          + "", partitionName=""
          + this.partitionName
          + ""]"";
    }
  }
}
".

(* bjse-bin/src/main/java/com/finproto/bjse/trade/messages/PlatformStateInfo.java *)
Definition text_bjse_PlatformStateInfo : text :=
"// Code generated by fin-protoc. DO NOT EDIT.
package com.finproto.bjse.trade.messages;

import com.finproto.codec.BinaryCodec;
import io.netty.buffer.ByteBuf;
import java.util.Objects;

public class PlatformStateInfo implements BinaryCodec {
  private short platformId;
  private short platformState;

  public short getPlatformId() {
    return this.platformId;
  }

  public void setPlatformId(short platformId) {
    this.platformId = platformId;
  }

  public short getPlatformState() {
    return this.platformState;
  }

  public void setPlatformState(short platformState) {
    this.platformState = platformState;
  }

  @Override
  public void encode(ByteBuf byteBuf) {
    byteBuf.writeShortLE(this.platformId);
    byteBuf.writeShortLE(this.platformState);
  }

  @Override
  public void decode(ByteBuf byteBuf) {
    this.platformId = byteBuf.readShortLE();
    this.platformState = byteBuf.readShortLE();
  }

  @Override
  public int hashCode() {
    return Objects.hash(platformId, platformState);
  }

  @Override
  public boolean equals(Object obj) {
    if (this == obj) {
      return true;
    }
    if (null == obj || getClass() != obj.getClass()) {
      return false;
    }
    PlatformStateInfo orther_ = (PlatformStateInfo) obj;
    return Objects.equals(platformId, orther_.platformId)
        && Objects.equals(platformState, orther_.platformState);
  }

  @Override
  public String toString() {
    return ""PlatformStateInfo [""
        + ""platformId=""
        + this.platformId
        + "", platformState=""
        + this.platformState
        + ""]"";
  }
}
".

(* bjse-bin/src/main/java/com/finproto/bjse/trade/messages/Quote.java *)
Definition text_bjse_Quote : text :=
"// Code generated by fin-protoc. DO NOT EDIT.
package com.finproto.bjse.trade.messages;

import com.finproto.codec.BinaryCodec;
import io.netty.buffer.ByteBuf;
import java.util.HashMap;
import java.util.Map;
import java.util.Objects;
import java.util.function.Supplier;

public class Quote implements BinaryCodec {
  private String applId;
  private String submittingPbuid;
  private String securityId;
  private String securityIdsource;
  private short ownerType;
  private String clearingFirm;
  private long transactTime;
  private String userInfo;
  private String quoteMsgId;
  private String accountId;
  private String quoteReqId;
  private byte quoteType;
  private long bidPx;
  private long offerPx;
  private long bidSize;
  private long offerSize;
  private BinaryCodec applExtend;

  public String getApplId() {
    return this.applId;
  }

  public void setApplId(String applId) {
    this.applId = applId;
  }

  public String getSubmittingPbuid() {
    return this.submittingPbuid;
  }

  public void setSubmittingPbuid(String submittingPbuid) {
    this.submittingPbuid = submittingPbuid;
  }

  public String getSecurityId() {
    return this.securityId;
  }

  public void setSecurityId(String securityId) {
    this.securityId = securityId;
  }

  public String getSecurityIdsource() {
    return this.securityIdsource;
  }

  public void setSecurityIdsource(String securityIdsource) {
    this.securityIdsource = securityIdsource;
  }

  public short getOwnerType() {
    return this.ownerType;
  }

  public void setOwnerType(short ownerType) {
    this.ownerType = ownerType;
  }

  public String getClearingFirm() {
    return this.clearingFirm;
  }

  public void setClearingFirm(String clearingFirm) {
    this.clearingFirm = clearingFirm;
  }

  public long getTransactTime() {
    return this.transactTime;
  }

  public void setTransactTime(long transactTime) {
    this.transactTime = transactTime;
  }

  public String getUserInfo() {
    return this.userInfo;
  }

  public void setUserInfo(String userInfo) {
    this.userInfo = userInfo;
  }

  public String getQuoteMsgId() {
    return this.quoteMsgId;
  }

  public void setQuoteMsgId(String quoteMsgId) {
    this.quoteMsgId = quoteMsgId;
  }

  public String getAccountId() {
    return this.accountId;
  }

  public void setAccountId(String accountId) {
    this.accountId = accountId;
  }

  public String getQuoteReqId() {
    return this.quoteReqId;
  }

  public void setQuoteReqId(String quoteReqId) {
    this.quoteReqId = quoteReqId;
  }

  public byte getQuoteType() {
    return this.quoteType;
  }

  public void setQuoteType(byte quoteType) {
    this.quoteType = quoteType;
  }

  public long getBidPx() {
    return this.bidPx;
  }

  public void setBidPx(long bidPx) {
    this.bidPx = bidPx;
  }

  public long getOfferPx() {
    return this.offerPx;
  }

  public void setOfferPx(long offerPx) {
    this.offerPx = offerPx;
  }

  public long getBidSize() {
    return this.bidSize;
  }

  public void setBidSize(long bidSize) {
    this.bidSize = bidSize;
  }

  public long getOfferSize() {
    return this.offerSize;
  }

  public void setOfferSize(long offerSize) {
    this.offerSize = offerSize;
  }

  public BinaryCodec getApplExtend() {
    return this.applExtend;
  }

  public void setApplExtend(BinaryCodec applExtend) {
    this.applExtend = applExtend;
  }

  @Override
  public void encode(ByteBuf byteBuf) {
    writeFixedString(byteBuf, this.applId, 3);
    writeFixedString(byteBuf, this.submittingPbuid, 6);
    writeFixedString(byteBuf, this.securityId, 8);
    writeFixedString(byteBuf, this.securityIdsource, 4);
    byteBuf.writeShortLE(this.ownerType);
    writeFixedString(byteBuf, this.clearingFirm, 2);
    byteBuf.writeLongLE(this.transactTime);
    writeFixedString(byteBuf, this.userInfo, 32);
    writeFixedString(byteBuf, this.quoteMsgId, 10);
    writeFixedString(byteBuf, this.accountId, 10);
    writeFixedString(byteBuf, this.quoteReqId, 10);
    byteBuf.writeByte(this.quoteType);
    byteBuf.writeLongLE(this.bidPx);
    byteBuf.writeLongLE(this.offerPx);
    byteBuf.writeLongLE(this.bidSize);
    byteBuf.writeLongLE(this.offerSize);
    if (null != this.applExtend) {
      this.applExtend.encode(byteBuf);
    }
  }

  @Override
  public void decode(ByteBuf byteBuf) {
    this.applId = readFixedString(byteBuf, 3);
    this.submittingPbuid = readFixedString(byteBuf, 6);
    this.securityId = readFixedString(byteBuf, 8);
    this.securityIdsource = readFixedString(byteBuf, 4);
    this.ownerType = byteBuf.readShortLE();
    this.clearingFirm = readFixedString(byteBuf, 2);
    this.transactTime = byteBuf.readLongLE();
    this.userInfo = readFixedString(byteBuf, 32);
    this.quoteMsgId = readFixedString(byteBuf, 10);
    this.accountId = readFixedString(byteBuf, 10);
    this.quoteReqId = readFixedString(byteBuf, 10);
    this.quoteType = byteBuf.readByte();
    this.bidPx = byteBuf.readLongLE();
    this.offerPx = byteBuf.readLongLE();
    this.bidSize = byteBuf.readLongLE();
    this.offerSize = byteBuf.readLongLE();
    this.applExtend = ApplExtendMessageFactory.getInstance().create(this.applId);
    this.applExtend.decode(byteBuf);
  }

  @Override
  public int hashCode() {
    return Objects.hash(
        applId,
        submittingPbuid,
        securityId,
        securityIdsource,
        ownerType,
        clearingFirm,
        transactTime,
        userInfo,
        quoteMsgId,
        accountId,
        quoteReqId,
        quoteType,
        bidPx,
        offerPx,
        bidSize,
        offerSize,
        applExtend);
  }

  @Override
  public boolean equals(Object obj) {
    if (this == obj) {
      return true;
    }
    if (null == obj || getClass() != obj.getClass()) {
      return false;
    }
    Quote orther_ = (Quote) obj;
    return Objects.equals(applId, orther_.applId)
        && Objects.equals(submittingPbuid, orther_.submittingPbuid)
        && Objects.equals(securityId, orther_.securityId)
        && Objects.equals(securityIdsource, orther_.securityIdsource)
        && Objects.equals(ownerType, orther_.ownerType)
        && Objects.equals(clearingFirm, orther_.clearingFirm)
        && Objects.equals(transactTime, orther_.transactTime)
        && Objects.equals(userInfo, orther_.userInfo)
        && Objects.equals(quoteMsgId, orther_.quoteMsgId)
        && Objects.equals(accountId, orther_.accountId)
        && Objects.equals(quoteReqId, orther_.quoteReqId)
        && Objects.equals(quoteType, orther_.quoteType)
        && Objects.equals(bidPx, orther_.bidPx)
        && Objects.equals(offerPx, orther_.offerPx)
        && Objects.equals(bidSize, orther_.bidSize)
        && Objects.equals(offerSize, orther_.offerSize)
        && Objects.equals(applExtend, orther_.applExtend);
  }

  @Override
  public String toString() {
    return ""Quote [""
        + ""applId=""
        + this.applId
        + "", submittingPbuid=""
        + this.submittingPbuid
        + "", securityId=""
        + this.securityId
        + "", securityIdsource=""
        + this.securityIdsource
        + "", ownerType=""
        + this.ownerType
        + "", clearingFirm=""
        + this.clearingFirm
        + "", transactTime=""
        + this.transactTime
        + "", userInfo=""
        + this.userInfo
        + "", quoteMsgId=""
        + this.quoteMsgId
        + "", accountId=""
        + this.accountId
        + "", quoteReqId=""
        + this.quoteReqId
        + "", quoteType=""
        + this.quoteType
        + "", bidPx=""
        + this.bidPx
        + "", offerPx=""
        + this.offerPx
        + "", bidSize=""
        + this.bidSize
        + "", offerSize=""
        + this.offerSize
        + "", applExtend=""
        + this.applExtend
        + ""]"";
  }

  public static enum ApplExtendMessageFactory {
    INSTANCE;
    private final Map<String, Supplier<BinaryCodec>> applExtendMap = new HashMap<>();

    static {
      getInstance().register(""070"", QuoteExtend070::new);
      getInstance().register(""071"", QuoteExtend071::new);
    }

    public BinaryCodec create(String applId) {
      Supplier<BinaryCodec> supplier = applExtendMap.get(applId);
      if (null == supplier) {
        throw new IllegalArgumentException(""Unsupported ApplID:"" + applId);
      }
      return supplier.get();
    }

    public void register(String applId, Supplier<BinaryCodec> supplier) {
      applExtendMap.put(applId, supplier);
    }

    public boolean remove(String applId) {
      return null != applExtendMap.remove(applId);
    }

    public static ApplExtendMessageFactory getInstance() {
      return INSTANCE;
    }
  }
}
".

(* bjse-bin/src/main/java/com/finproto/bjse/trade/messages/QuoteExtend070.java *)
Definition text_bjse_QuoteExtend070 : text :=
"// Code generated by fin-protoc. DO NOT EDIT.
package com.finproto.bjse.trade.messages;

import com.finproto.codec.BinaryCodec;
import io.netty.buffer.ByteBuf;
import java.util.Objects;

public class QuoteExtend070 implements BinaryCodec {
  private String branchId;
  private String quoteId;
  private String quoteRespId;
  private byte privateQuote;
  private long validUntilTime;
  private byte priceType;
  private String cashMargin;
  private String counterPartyPbuid;
  private String memo;

  public String getBranchId() {
    return this.branchId;
  }

  public void setBranchId(String branchId) {
    this.branchId = branchId;
  }

  public String getQuoteId() {
    return this.quoteId;
  }

  public void setQuoteId(String quoteId) {
    this.quoteId = quoteId;
  }

  public String getQuoteRespId() {
    return this.quoteRespId;
  }

  public void setQuoteRespId(String quoteRespId) {
    this.quoteRespId = quoteRespId;
  }

  public byte getPrivateQuote() {
    return this.privateQuote;
  }

  public void setPrivateQuote(byte privateQuote) {
    this.privateQuote = privateQuote;
  }

  public long getValidUntilTime() {
    return this.validUntilTime;
  }

  public void setValidUntilTime(long validUntilTime) {
    this.validUntilTime = validUntilTime;
  }

  public byte getPriceType() {
    return this.priceType;
  }

  public void setPriceType(byte priceType) {
    this.priceType = priceType;
  }

  public String getCashMargin() {
    return this.cashMargin;
  }

  public void setCashMargin(String cashMargin) {
    this.cashMargin = cashMargin;
  }

  public String getCounterPartyPbuid() {
    return this.counterPartyPbuid;
  }

  public void setCounterPartyPbuid(String counterPartyPbuid) {
    this.counterPartyPbuid = counterPartyPbuid;
  }

  public String getMemo() {
    return this.memo;
  }

  public void setMemo(String memo) {
    this.memo = memo;
  }

  @Override
  public void encode(ByteBuf byteBuf) {
    writeFixedString(byteBuf, this.branchId, 2);
    writeFixedString(byteBuf, this.quoteId, 10);
    writeFixedString(byteBuf, this.quoteRespId, 10);
    byteBuf.writeByte(this.privateQuote);
    byteBuf.writeLongLE(this.validUntilTime);
    byteBuf.writeByte(this.priceType);
    writeFixedString(byteBuf, this.cashMargin, 1);
    writeFixedString(byteBuf, this.counterPartyPbuid, 6);
    writeFixedString(byteBuf, this.memo, 120);
  }

  @Override
  public void decode(ByteBuf byteBuf) {
    this.branchId = readFixedString(byteBuf, 2);
    this.quoteId = readFixedString(byteBuf, 10);
    this.quoteRespId = readFixedString(byteBuf, 10);
    this.privateQuote = byteBuf.readByte();
    this.validUntilTime = byteBuf.readLongLE();
    this.priceType = byteBuf.readByte();
    this.cashMargin = readFixedString(byteBuf, 1);
    this.counterPartyPbuid = readFixedString(byteBuf, 6);
    this.memo = readFixedString(byteBuf, 120);
  }

  @Override
  public int hashCode() {
    return Objects.hash(
        branchId,
        quoteId,
        quoteRespId,
        privateQuote,
        validUntilTime,
        priceType,
        cashMargin,
        counterPartyPbuid,
        memo);
  }

  @Override
  public boolean equals(Object obj) {
    if (this == obj) {
      return true;
    }
    if (null == obj || getClass() != obj.getClass()) {
      return false;
    }
    QuoteExtend070 orther_ = (QuoteExtend070) obj;
    return Objects.equals(branchId, orther_.branchId)
        && Objects.equals(quoteId, orther_.quoteId)
        && Objects.equals(quoteRespId, orther_.quoteRespId)
        && Objects.equals(privateQuote, orther_.privateQuote)
        && Objects.equals(validUntilTime, orther_.validUntilTime)
        && Objects.equals(priceType, orther_.priceType)
        && Objects.equals(cashMargin, orther_.cashMargin)
        && Objects.equals(counterPartyPbuid, orther_.counterPartyPbuid)
        && Objects.equals(memo, orther_.memo);
  }

  @Override
  public String toString() {
    return ""QuoteExtend070 [""
        + ""branchId=""
        + this.branchId
        + "", quoteId=""
        + this.quoteId
        + "", quoteRespId=""
        + this.quoteRespId
        + "", privateQuote=""
        + this.privateQuote
        + "", validUntilTime=""
        + this.validUntilTime
        + "", priceType=""
        + this.priceType
        + "", cashMargin=""
        + this.cashMargin
        + "", counterPartyPbuid=""
        + this.counterPartyPbuid
        + "", memo=""
        + this.memo
        + ""]"";
  }
}
".

(* bjse-bin/src/main/java/com/finproto/bjse/trade/messages/QuoteExtend071.java *)
Definition text_bjse_QuoteExtend071 : text :=
"// Code generated by fin-protoc. DO NOT EDIT.
package com.finproto.bjse.trade.messages;

import com.finproto.codec.BinaryCodec;
import io.netty.buffer.ByteBuf;

public class QuoteExtend071 implements BinaryCodec {

  @Override
  public void encode(ByteBuf byteBuf) {}

  @Override
  public void decode(ByteBuf byteBuf) {}

  @Override
  public int hashCode() {
    return this.hashCode();
  }

  @Override
  public boolean equals(Object obj) {
    if (this == obj) {
      return true;
    }
    if (null == obj || getClass() != obj.getClass()) {
      return false;
    }
    return true;
  }

  @Override
  public String toString() {
    return ""QuoteExtend071 []"";
  }
}
".

(* bjse-bin/src/main/java/com/finproto/bjse/trade/messages/QuoteResponse.java *)
Definition text_bjse_QuoteResponse : text :=
"// Code generated by fin-protoc. DO NOT EDIT.
package com.finproto.bjse.trade.messages;

import com.finproto.codec.BinaryCodec;
import io.netty.buffer.ByteBuf;
import java.util.ArrayList;
import java.util.HashMap;
import java.util.List;
import java.util.Map;
import java.util.Objects;
import java.util.function.Supplier;

public class QuoteResponse implements BinaryCodec {
  private String applId;
  private String reportingPbuid;
  private String submittingPbuid;
  private String securityId;
  private String securityIdsource;
  private short ownerType;
  private String clearingFirm;
  private long transactTime;
  private String userInfo;
  private String clOrdId;
  private String accountId;
  private String branchId;
  private String quoteRespId;
  private byte quoteRespType;
  private String side;
  private long validUntilTime;
  private byte quoteType;
  private byte priceType;
  private List<Quote2> quote2;
  private BinaryCodec applExtend;

  public String getApplId() {
    return this.applId;
  }

  public void setApplId(String applId) {
    this.applId = applId;
  }

  public String getReportingPbuid() {
    return this.reportingPbuid;
  }

  public void setReportingPbuid(String reportingPbuid) {
    this.reportingPbuid = reportingPbuid;
  }

  public String getSubmittingPbuid() {
    return this.submittingPbuid;
  }

  public void setSubmittingPbuid(String submittingPbuid) {
    this.submittingPbuid = submittingPbuid;
  }

  public String getSecurityId() {
    return this.securityId;
  }

  public void setSecurityId(String securityId) {
    this.securityId = securityId;
  }

  public String getSecurityIdsource() {
    return this.securityIdsource;
  }

  public void setSecurityIdsource(String securityIdsource) {
    this.securityIdsource = securityIdsource;
  }

  public short getOwnerType() {
    return this.ownerType;
  }

  public void setOwnerType(short ownerType) {
    this.ownerType = ownerType;
  }

  public String getClearingFirm() {
    return this.clearingFirm;
  }

  public void setClearingFirm(String clearingFirm) {
    this.clearingFirm = clearingFirm;
  }

  public long getTransactTime() {
    return this.transactTime;
  }

  public void setTransactTime(long transactTime) {
    this.transactTime = transactTime;
  }

  public String getUserInfo() {
    return this.userInfo;
  }

  public void setUserInfo(String userInfo) {
    this.userInfo = userInfo;
  }

  public String getClOrdId() {
    return this.clOrdId;
  }

  public void setClOrdId(String clOrdId) {
    this.clOrdId = clOrdId;
  }

  public String getAccountId() {
    return this.accountId;
  }

  public void setAccountId(String accountId) {
    this.accountId = accountId;
  }

  public String getBranchId() {
    return this.branchId;
  }

  public void setBranchId(String branchId) {
    this.branchId = branchId;
  }

  public String getQuoteRespId() {
    return this.quoteRespId;
  }

  public void setQuoteRespId(String quoteRespId) {
    this.quoteRespId = quoteRespId;
  }

  public byte getQuoteRespType() {
    return this.quoteRespType;
  }

  public void setQuoteRespType(byte quoteRespType) {
    this.quoteRespType = quoteRespType;
  }

  public String getSide() {
    return this.side;
  }

  public void setSide(String side) {
    this.side = side;
  }

  public long getValidUntilTime() {
    return this.validUntilTime;
  }

  public void setValidUntilTime(long validUntilTime) {
    this.validUntilTime = validUntilTime;
  }

  public byte getQuoteType() {
    return this.quoteType;
  }

  public void setQuoteType(byte quoteType) {
    this.quoteType = quoteType;
  }

  public byte getPriceType() {
    return this.priceType;
  }

  public void setPriceType(byte priceType) {
    this.priceType = priceType;
  }

  public List<Quote2> getQuote2() {
    return this.quote2;
  }

  public void setQuote2(List<Quote2> quote2) {
    this.quote2 = quote2;
  }

  public BinaryCodec getApplExtend() {
    return this.applExtend;
  }

  public void setApplExtend(BinaryCodec applExtend) {
    this.applExtend = applExtend;
  }

  @Override
  public void encode(ByteBuf byteBuf) {
    writeFixedString(byteBuf, this.applId, 3);
    writeFixedString(byteBuf, this.reportingPbuid, 6);
    writeFixedString(byteBuf, this.submittingPbuid, 6);
    writeFixedString(byteBuf, this.securityId, 8);
    writeFixedString(byteBuf, this.securityIdsource, 4);
    byteBuf.writeShortLE(this.ownerType);
    writeFixedString(byteBuf, this.clearingFirm, 2);
    byteBuf.writeLongLE(this.transactTime);
    writeFixedString(byteBuf, this.userInfo, 32);
    writeFixedString(byteBuf, this.clOrdId, 10);
    writeFixedString(byteBuf, this.accountId, 10);
    writeFixedString(byteBuf, this.branchId, 2);
    writeFixedString(byteBuf, this.quoteRespId, 10);
    byteBuf.writeByte(this.quoteRespType);
    writeFixedString(byteBuf, this.side, 1);
    byteBuf.writeLongLE(this.validUntilTime);
    byteBuf.writeByte(this.quoteType);
    byteBuf.writeByte(this.priceType);
    if (null == this.quote2 || this.quote2.size() == 0) {
      byteBuf.writeShort(0);
    } else {
      byteBuf.writeShortLE((short) this.quote2.size());
      for (int i = 0; i < this.quote2.size(); i++) {
        this.quote2.get(i).encode(byteBuf);
      }
    }
    if (null != this.applExtend) {
      this.applExtend.encode(byteBuf);
    }
  }

  @Override
  public void decode(ByteBuf byteBuf) {
    this.applId = readFixedString(byteBuf, 3);
    this.reportingPbuid = readFixedString(byteBuf, 6);
    this.submittingPbuid = readFixedString(byteBuf, 6);
    this.securityId = readFixedString(byteBuf, 8);
    this.securityIdsource = readFixedString(byteBuf, 4);
    this.ownerType = byteBuf.readShortLE();
    this.clearingFirm = readFixedString(byteBuf, 2);
    this.transactTime = byteBuf.readLongLE();
    this.userInfo = readFixedString(byteBuf, 32);
    this.clOrdId = readFixedString(byteBuf, 10);
    this.accountId = readFixedString(byteBuf, 10);
    this.branchId = readFixedString(byteBuf, 2);
    this.quoteRespId = readFixedString(byteBuf, 10);
    this.quoteRespType = byteBuf.readByte();
    this.side = readFixedString(byteBuf, 1);
    this.validUntilTime = byteBuf.readLongLE();
    this.quoteType = byteBuf.readByte();
    this.priceType = byteBuf.readByte();
    short quote2Size = byteBuf.readShortLE();
    if (quote2Size > 0) {
      this.quote2 = new ArrayList<>();
      for (int i = 0; i < quote2Size; i++) {
        Quote2 quote2_ = new Quote2();
        quote2_.decode(byteBuf);
        this.quote2.add(quote2_);
      }
    }
    this.applExtend = ApplExtendMessageFactory.getInstance().create(this.applId);
    this.applExtend.decode(byteBuf);
  }

  @Override
  public int hashCode() {
    return Objects.hash(
        applId,
        reportingPbuid,
        submittingPbuid,
        securityId,
        securityIdsource,
        ownerType,
        clearingFirm,
        transactTime,
        userInfo,
        clOrdId,
        accountId,
        branchId,
        quoteRespId,
        quoteRespType,
        side,
        validUntilTime,
        quoteType,
        priceType,
        quote2,
        applExtend);
  }

  @Override
  public boolean equals(Object obj) {
    if (this == obj) {
      return true;
    }
    if (null == obj || getClass() != obj.getClass()) {
      return false;
    }
    QuoteResponse orther_ = (QuoteResponse) obj;
    return Objects.equals(applId, orther_.applId)
        && Objects.equals(reportingPbuid, orther_.reportingPbuid)
        && Objects.equals(submittingPbuid, orther_.submittingPbuid)
        && Objects.equals(securityId, orther_.securityId)
        && Objects.equals(securityIdsource, orther_.securityIdsource)
        && Objects.equals(ownerType, orther_.ownerType)
        && Objects.equals(clearingFirm, orther_.clearingFirm)
        && Objects.equals(transactTime, orther_.transactTime)
        && Objects.equals(userInfo, orther_.userInfo)
        && Objects.equals(clOrdId, orther_.clOrdId)
        && Objects.equals(accountId, orther_.accountId)
        && Objects.equals(branchId, orther_.branchId)
        && Objects.equals(quoteRespId, orther_.quoteRespId)
        && Objects.equals(quoteRespType, orther_.quoteRespType)
        && Objects.equals(side, orther_.side)
        && Objects.equals(validUntilTime, orther_.validUntilTime)
        && Objects.equals(quoteType, orther_.quoteType)
        && Objects.equals(priceType, orther_.priceType)
        && Objects.equals(quote2, orther_.quote2)
        && Objects.equals(applExtend, orther_.applExtend);
  }

  @Override
  public String toString() {
    return ""QuoteResponse [""
        + ""applId=""
        + this.applId
        + "", reportingPbuid=""
        + this.reportingPbuid
        + "", submittingPbuid=""
        + this.submittingPbuid
        + "", securityId=""
        + this.securityId
        + "", securityIdsource=""
        + this.securityIdsource
        + "", ownerType=""
        + this.ownerType
        + "", clearingFirm=""
        + this.clearingFirm
        + "", transactTime=""
        + this.transactTime
        + "", userInfo=""
        + this.userInfo
        + "", clOrdId=""
        + this.clOrdId
        + "", accountId=""
        + this.accountId
        + "", branchId=""
        + this.branchId
        + "", quoteRespId=""
        + this.quoteRespId
        + "", quoteRespType=""
        + this.quoteRespType
        + "", side=""
        + this.side
        + "", validUntilTime=""
        + this.validUntilTime
        + "", quoteType=""
        + this.quoteType
        + "", priceType=""
        + this.priceType
        + "", quote2=""
        + this.quote2
        + "", applExtend=""
        + this.applExtend
        + ""]"";
  }

  // Code generated by fin-protoc. DO NOT EDIT.
  public static class Quote2 implements BinaryCodec {
    private String quoteId;
    private long quotePrice;
    private long quoteQty;

    public String getQuoteId() {
      return this.quoteId;
    }

    public void setQuoteId(String quoteId) {
      this.quoteId = quoteId;
    }

    public long getQuotePrice() {
      return this.quotePrice;
    }

    public void setQuotePrice(long quotePrice) {
      this.quotePrice = quotePrice;
    }

    public long getQuoteQty() {
      return this.quoteQty;
    }

    public void setQuoteQty(long quoteQty) {
      this.quoteQty = quoteQty;
    }

    @Override
    public void encode(ByteBuf byteBuf) {
      writeFixedString(byteBuf, this.quoteId, 10);
      byteBuf.writeLongLE(this.quotePrice);
      byteBuf.writeLongLE(this.quoteQty);
    }

    @Override
    public void decode(ByteBuf byteBuf) {
      this.quoteId = readFixedString(byteBuf, 10);
      this.quotePrice = byteBuf.readLongLE();
      this.quoteQty = byteBuf.readLongLE();
    }

    @Override
    public int hashCode() {
      return Objects.hash(quoteId, quotePrice, quoteQty);
    }

    @Override
    public boolean equals(Object obj) {
      if (this == obj) {
        return true;
      }
      if (null == obj || getClass() != obj.getClass()) {
        return false;
      }
      Quote2 orther_ = (Quote2) obj;
      return Objects.equals(quoteId, orther_.quoteId)
          && Objects.equals(quotePrice, orther_.quotePrice)
          && Objects.equals(quoteQty, orther_.quoteQty);
    }

    @Override
    public String toString() {
      return ""Quote2 [""
          + ""quoteId=""
          + this.quoteId
          + "", quotePrice=""
          + this.quotePrice
          + "", quoteQty=""
          + this.quoteQty
          + ""]"";
    }
  }

  public static enum ApplExtendMessageFactory {
    INSTANCE;
    private final Map<String, Supplier<BinaryCodec>> applExtendMap = new HashMap<>();

    static {
      getInstance().register(""070"", QuoteResponseExtend070::new);
    }

    public BinaryCodec create(String applId) {
      Supplier<BinaryCodec> supplier = applExtendMap.get(applId);
      if (null == supplier) {
        throw new IllegalArgumentException(""Unsupported ApplID:"" + applId);
      }
      return supplier.get();
    }

    public void register(String applId, Supplier<BinaryCodec> supplier) {
      applExtendMap.put(applId, supplier);
    }

    public boolean remove(String applId) {
      return null != applExtendMap.remove(applId);
    }

    public static ApplExtendMessageFactory getInstance() {
      return INSTANCE;
    }
  }
}
".

(* bjse-bin/src/main/java/com/finproto/bjse/trade/messages/QuoteResponseExtend070.java *)
Definition text_bjse_QuoteResponseExtend070 : text :=
"// Code generated by fin-protoc. DO NOT EDIT.
package com.finproto.bjse.trade.messages;

import com.finproto.codec.BinaryCodec;
import io.netty.buffer.ByteBuf;
import java.util.Objects;

public class QuoteResponseExtend070 implements BinaryCodec {
  private String cashMargin;

  public String getCashMargin() {
    return this.cashMargin;
  }

  public void setCashMargin(String cashMargin) {
    this.cashMargin = cashMargin;
  }

  @Override
  public void encode(ByteBuf byteBuf) {
    writeFixedString(byteBuf, this.cashMargin, 1);
  }

  @Override
  public void decode(ByteBuf byteBuf) {
    this.cashMargin = readFixedString(byteBuf, 1);
  }

  @Override
  public int hashCode() {
    return Objects.hash(cashMargin);
  }

  @Override
  public boolean equals(Object obj) {
    if (this == obj) {
      return true;
    }
    if (null == obj || getClass() != obj.getClass()) {
      return false;
    }
    QuoteResponseExtend070 orther_ = (QuoteResponseExtend070) obj;
    return Objects.equals(cashMargin, orther_.cashMargin);
  }

  @Override
  public String toString() {
    return ""QuoteResponseExtend070 ["" + ""cashMargin="" + this.cashMargin + ""]"";
  }
}
".

(* bjse-bin/src/main/java/com/finproto/bjse/trade/messages/QuoteStatusReport.java *)
Definition text_bjse_QuoteStatusReport : text :=
"// Code generated by fin-protoc. DO NOT EDIT.
package com.finproto.bjse.trade.messages;

import com.finproto.codec.BinaryCodec;
import io.netty.buffer.ByteBuf;
import java.util.HashMap;
import java.util.Map;
import java.util.Objects;
import java.util.function.Supplier;

public class QuoteStatusReport implements BinaryCodec {
  private int partitionNo;
  private long reportIndex;
  private String applId;
  private String reportingPbuid;
  private String submittingPbuid;
  private String securityId;
  private String securityIdsource;
  private short ownerType;
  private String clearingFirm;
  private long transactTime;
  private String userInfo;
  private String quoteMsgId;
  private String accountId;
  private String quoteReqId;
  private long quoteRjectReason;
  private byte quoteType;
  private long bidPx;
  private long offerPx;
  private long bidSize;
  private long offerSize;
  private BinaryCodec applExtend;

  public int getPartitionNo() {
    return this.partitionNo;
  }

  public void setPartitionNo(int partitionNo) {
    this.partitionNo = partitionNo;
  }

  public long getReportIndex() {
    return this.reportIndex;
  }

  public void setReportIndex(long reportIndex) {
    this.reportIndex = reportIndex;
  }

  public String getApplId() {
    return this.applId;
  }

  public void setApplId(String applId) {
    this.applId = applId;
  }

  public String getReportingPbuid() {
    return this.reportingPbuid;
  }

  public void setReportingPbuid(String reportingPbuid) {
    this.reportingPbuid = reportingPbuid;
  }

  public String getSubmittingPbuid() {
    return this.submittingPbuid;
  }

  public void setSubmittingPbuid(String submittingPbuid) {
    this.submittingPbuid = submittingPbuid;
  }

  public String getSecurityId() {
    return this.securityId;
  }

  public void setSecurityId(String securityId) {
    this.securityId = securityId;
  }

  public String getSecurityIdsource() {
    return this.securityIdsource;
  }

  public void setSecurityIdsource(String securityIdsource) {
    this.securityIdsource = securityIdsource;
  }

  public short getOwnerType() {
    return this.ownerType;
  }

  public void setOwnerType(short ownerType) {
    this.ownerType = ownerType;
  }

  public String getClearingFirm() {
    return this.clearingFirm;
  }

  public void setClearingFirm(String clearingFirm) {
    this.clearingFirm = clearingFirm;
  }

  public long getTransactTime() {
    return this.transactTime;
  }

  public void setTransactTime(long transactTime) {
    this.transactTime = transactTime;
  }

  public String getUserInfo() {
    return this.userInfo;
  }

  public void setUserInfo(String userInfo) {
    this.userInfo = userInfo;
  }

  public String getQuoteMsgId() {
    return this.quoteMsgId;
  }

  public void setQuoteMsgId(String quoteMsgId) {
    this.quoteMsgId = quoteMsgId;
  }

  public String getAccountId() {
    return this.accountId;
  }

  public void setAccountId(String accountId) {
    this.accountId = accountId;
  }

  public String getQuoteReqId() {
    return this.quoteReqId;
  }

  public void setQuoteReqId(String quoteReqId) {
    this.quoteReqId = quoteReqId;
  }

  public long getQuoteRjectReason() {
    return this.quoteRjectReason;
  }

  public void setQuoteRjectReason(long quoteRjectReason) {
    this.quoteRjectReason = quoteRjectReason;
  }

  public byte getQuoteType() {
    return this.quoteType;
  }

  public void setQuoteType(byte quoteType) {
    this.quoteType = quoteType;
  }

  public long getBidPx() {
    return this.bidPx;
  }

  public void setBidPx(long bidPx) {
    this.bidPx = bidPx;
  }

  public long getOfferPx() {
    return this.offerPx;
  }

  public void setOfferPx(long offerPx) {
    this.offerPx = offerPx;
  }

  public long getBidSize() {
    return this.bidSize;
  }

  public void setBidSize(long bidSize) {
    this.bidSize = bidSize;
  }

  public long getOfferSize() {
    return this.offerSize;
  }

  public void setOfferSize(long offerSize) {
    this.offerSize = offerSize;
  }

  public BinaryCodec getApplExtend() {
    return this.applExtend;
  }

  public void setApplExtend(BinaryCodec applExtend) {
    this.applExtend = applExtend;
  }

  @Override
  public void encode(ByteBuf byteBuf) {
    byteBuf.writeIntLE(this.partitionNo);
    byteBuf.writeLongLE(this.reportIndex);
    writeFixedString(byteBuf, this.applId, 3);
    writeFixedString(byteBuf, this.reportingPbuid, 6);
    writeFixedString(byteBuf, this.submittingPbuid, 6);
    writeFixedString(byteBuf, this.securityId, 8);
    writeFixedString(byteBuf, this.securityIdsource, 4);
    byteBuf.writeShortLE(this.ownerType);
    writeFixedString(byteBuf, this.clearingFirm, 2);
    byteBuf.writeLongLE(this.transactTime);
    writeFixedString(byteBuf, this.userInfo, 32);
    writeFixedString(byteBuf, this.quoteMsgId, 10);
    writeFixedString(byteBuf, this.accountId, 10);
    writeFixedString(byteBuf, this.quoteReqId, 10);
    byteBuf.writeLongLE(this.quoteRjectReason);
    byteBuf.writeByte(this.quoteType);
    byteBuf.writeLongLE(this.bidPx);
    byteBuf.writeLongLE(this.offerPx);
    byteBuf.writeLongLE(this.bidSize);
    byteBuf.writeLongLE(this.offerSize);
    if (null != this.applExtend) {
      this.applExtend.encode(byteBuf);
    }
  }

  @Override
  public void decode(ByteBuf byteBuf) {
    this.partitionNo = byteBuf.readIntLE();
    this.reportIndex = byteBuf.readLongLE();
    this.applId = readFixedString(byteBuf, 3);
    this.reportingPbuid = readFixedString(byteBuf, 6);
    this.submittingPbuid = readFixedString(byteBuf, 6);
    this.securityId = readFixedString(byteBuf, 8);
    this.securityIdsource = readFixedString(byteBuf, 4);
    this.ownerType = byteBuf.readShortLE();
    this.clearingFirm = readFixedString(byteBuf, 2);
    this.transactTime = byteBuf.readLongLE();
    this.userInfo = readFixedString(byteBuf, 32);
    this.quoteMsgId = readFixedString(byteBuf, 10);
    this.accountId = readFixedString(byteBuf, 10);
    this.quoteReqId = readFixedString(byteBuf, 10);
    this.quoteRjectReason = byteBuf.readLongLE();
    this.quoteType = byteBuf.readByte();
    this.bidPx = byteBuf.readLongLE();
    this.offerPx = byteBuf.readLongLE();
    this.bidSize = byteBuf.readLongLE();
    this.offerSize = byteBuf.readLongLE();
    this.applExtend = ApplExtendMessageFactory.getInstance().create(this.applId);
    this.applExtend.decode(byteBuf);
  }

  @Override
  public int hashCode() {
    return Objects.hash(
        partitionNo,
        reportIndex,
        applId,
        reportingPbuid,
        submittingPbuid,
        securityId,
        securityIdsource,
        ownerType,
        clearingFirm,
        transactTime,
        userInfo,
        quoteMsgId,
        accountId,
        quoteReqId,
        quoteRjectReason,
        quoteType,
        bidPx,
        offerPx,
        bidSize,
        offerSize,
        applExtend);
  }

  @Override
  public boolean equals(Object obj) {
    if (this == obj) {
      return true;
    }
    if (null == obj || getClass() != obj.getClass()) {
      return false;
    }
    QuoteStatusReport orther_ = (QuoteStatusReport) obj;
    return Objects.equals(partitionNo, orther_.partitionNo)
        && Objects.equals(reportIndex, orther_.reportIndex)
        && Objects.equals(applId, orther_.applId)
        && Objects.equals(reportingPbuid, orther_.reportingPbuid)
        && Objects.equals(submittingPbuid, orther_.submittingPbuid)
        && Objects.equals(securityId, orther_.securityId)
        && Objects.equals(securityIdsource, orther_.securityIdsource)
        && Objects.equals(ownerType, orther_.ownerType)
        && Objects.equals(clearingFirm, orther_.clearingFirm)
        && Objects.equals(transactTime, orther_.transactTime)
        && Objects.equals(userInfo, orther_.userInfo)
        && Objects.equals(quoteMsgId, orther_.quoteMsgId)
        && Objects.equals(accountId, orther_.accountId)
        && Objects.equals(quoteReqId, orther_.quoteReqId)
        && Objects.equals(quoteRjectReason, orther_.quoteRjectReason)
        && Objects.equals(quoteType, orther_.quoteType)
        && Objects.equals(bidPx, orther_.bidPx)
        && Objects.equals(offerPx, orther_.offerPx)
        && Objects.equals(bidSize, orther_.bidSize)
        && Objects.equals(offerSize, orther_.offerSize)
        && Objects.equals(applExtend, orther_.applExtend);
  }

  @Override
  public String toString() {
    return ""QuoteStatusReport [""
        + ""partitionNo=""
        + this.partitionNo
        + "", reportIndex=""
        + this.reportIndex
        + "", applId=""
        + this.applId
        + "", reportingPbuid=""
        + this.reportingPbuid
        + "", submittingPbuid=""
        + this.submittingPbuid
        + "", securityId=""
        + this.securityId
        + "", securityIdsource=""
        + this.securityIdsource
        + "", ownerType=""
        + this.ownerType
        + "", clearingFirm=""
        + this.clearingFirm
        + "", transactTime=""
        + this.transactTime
        + "", userInfo=""
        + this.userInfo
        + "", quoteMsgId=""
        + this.quoteMsgId
        + "", accountId=""
        + this.accountId
        + "", quoteReqId=""
        + this.quoteReqId
        + "", quoteRjectReason=""
        + this.quoteRjectReason
        + "", quoteType=""
        + this.quoteType
        + "", bidPx=""
        + this.bidPx
        + "", offerPx=""
        + this.offerPx
        + "", bidSize=""
        + this.bidSize
        + "", offerSize=""
        + this.offerSize
        + "", applExtend=""
        + this.applExtend
        + ""]"";
  }

  public static enum ApplExtendMessageFactory {
    INSTANCE;
    private final Map<String, Supplier<BinaryCodec>> applExtendMap = new HashMap<>();

    static {
      getInstance().register(""070"", QuoteStatusReportExtend070::new);
    }

    public BinaryCodec create(String applId) {
      Supplier<BinaryCodec> supplier = applExtendMap.get(applId);
      if (null == supplier) {
        throw new IllegalArgumentException(""Unsupported ApplID:"" + applId);
      }
      return supplier.get();
    }

    public void register(String applId, Supplier<BinaryCodec> supplier) {
      applExtendMap.put(applId, supplier);
    }

    public boolean remove(String applId) {
      return null != applExtendMap.remove(applId);
    }

    public static ApplExtendMessageFactory getInstance() {
      return INSTANCE;
    }
  }
}
".

(* bjse-bin/src/main/java/com/finproto/bjse/trade/messages/QuoteStatusReportExtend070.java *)
Definition text_bjse_QuoteStatusReportExtend070 : text :=
"// Code generated by fin-protoc. DO NOT EDIT.
package com.finproto.bjse.trade.messages;

import com.finproto.codec.BinaryCodec;
import io.netty.buffer.ByteBuf;
import java.util.ArrayList;
import java.util.List;
import java.util.Objects;

public class QuoteStatusReportExtend070 implements BinaryCodec {
  private String branchId;
  private String orderId;
  private String execId;
  private String quoteRespId;
  private byte privateQuote;
  private String side;
  private byte priceType;
  private long validUntilTime;
  private String cashMargin;
  private String counterPartyPbuid;
  private String memo;
  private List<Quote1> quote1;

  public String getBranchId() {
    return this.branchId;
  }

  public void setBranchId(String branchId) {
    this.branchId = branchId;
  }

  public String getOrderId() {
    return this.orderId;
  }

  public void setOrderId(String orderId) {
    this.orderId = orderId;
  }

  public String getExecId() {
    return this.execId;
  }

  public void setExecId(String execId) {
    this.execId = execId;
  }

  public String getQuoteRespId() {
    return this.quoteRespId;
  }

  public void setQuoteRespId(String quoteRespId) {
    this.quoteRespId = quoteRespId;
  }

  public byte getPrivateQuote() {
    return this.privateQuote;
  }

  public void setPrivateQuote(byte privateQuote) {
    this.privateQuote = privateQuote;
  }

  public String getSide() {
    return this.side;
  }

  public void setSide(String side) {
    this.side = side;
  }

  public byte getPriceType() {
    return this.priceType;
  }

  public void setPriceType(byte priceType) {
    this.priceType = priceType;
  }

  public long getValidUntilTime() {
    return this.validUntilTime;
  }

  public void setValidUntilTime(long validUntilTime) {
    this.validUntilTime = validUntilTime;
  }

  public String getCashMargin() {
    return this.cashMargin;
  }

  public void setCashMargin(String cashMargin) {
    this.cashMargin = cashMargin;
  }

  public String getCounterPartyPbuid() {
    return this.counterPartyPbuid;
  }

  public void setCounterPartyPbuid(String counterPartyPbuid) {
    this.counterPartyPbuid = counterPartyPbuid;
  }

  public String getMemo() {
    return this.memo;
  }

  public void setMemo(String memo) {
    this.memo = memo;
  }

  public List<Quote1> getQuote1() {
    return this.quote1;
  }

  public void setQuote1(List<Quote1> quote1) {
    this.quote1 = quote1;
  }

  @Override
  public void encode(ByteBuf byteBuf) {
    writeFixedString(byteBuf, this.branchId, 2);
    writeFixedString(byteBuf, this.orderId, 16);
    writeFixedString(byteBuf, this.execId, 16);
    writeFixedString(byteBuf, this.quoteRespId, 10);
    byteBuf.writeByte(this.privateQuote);
    writeFixedString(byteBuf, this.side, 1);
    byteBuf.writeByte(this.priceType);
    byteBuf.writeLongLE(this.validUntilTime);
    writeFixedString(byteBuf, this.cashMargin, 1);
    writeFixedString(byteBuf, this.counterPartyPbuid, 6);
    writeFixedString(byteBuf, this.memo, 120);
    if (null == this.quote1 || this.quote1.size() == 0) {
      byteBuf.writeShort(0);
    } else {
      byteBuf.writeShortLE((short) this.quote1.size());
      for (int i = 0; i < this.quote1.size(); i++) {
        this.quote1.get(i).encode(byteBuf);
      }
    }
  }

  @Override
  public void decode(ByteBuf byteBuf) {
    this.branchId = readFixedString(byteBuf, 2);
    this.orderId = readFixedString(byteBuf, 16);
    this.execId = readFixedString(byteBuf, 16);
    this.quoteRespId = readFixedString(byteBuf, 10);
    this.privateQuote = byteBuf.readByte();
    this.side = readFixedString(byteBuf, 1);
    this.priceType = byteBuf.readByte();
    this.validUntilTime = byteBuf.readLongLE();
    this.cashMargin = readFixedString(byteBuf, 1);
    this.counterPartyPbuid = readFixedString(byteBuf, 6);
    this.memo = readFixedString(byteBuf, 120);
    short quote1Size = byteBuf.readShortLE();
    if (quote1Size > 0) {
      this.quote1 = new ArrayList<>();
      for (int i = 0; i < quote1Size; i++) {
        Quote1 quote1_ = new Quote1();
        quote1_.decode(byteBuf);
        this.quote1.add(quote1_);
      }
    }
  }

  @Override
  public int hashCode() {
    return Objects.hash(
        branchId,
        orderId,
        execId,
        quoteRespId,
        privateQuote,
        side,
        priceType,
        validUntilTime,
        cashMargin,
        counterPartyPbuid,
        memo,
        quote1);
  }

  @Override
  public boolean equals(Object obj) {
    if (this == obj) {
      return true;
    }
    if (null == obj || getClass() != obj.getClass()) {
      return false;
    }
    QuoteStatusReportExtend070 orther_ = (QuoteStatusReportExtend070) obj;
    return Objects.equals(branchId, orther_.branchId)
        && Objects.equals(orderId, orther_.orderId)
        && Objects.equals(execId, orther_.execId)
        && Objects.equals(quoteRespId, orther_.quoteRespId)
        && Objects.equals(privateQuote, orther_.privateQuote)
        && Objects.equals(side, orther_.side)
        && Objects.equals(priceType, orther_.priceType)
        && Objects.equals(validUntilTime, orther_.validUntilTime)
        && Objects.equals(cashMargin, orther_.cashMargin)
        && Objects.equals(counterPartyPbuid, orther_.counterPartyPbuid)
        && Objects.equals(memo, orther_.memo)
        && Objects.equals(quote1, orther_.quote1);
  }

  @Override
  public String toString() {
    return ""QuoteStatusReportExtend070 [""
        + ""branchId=""
        + this.branchId
        + "", orderId=""
        + this.orderId
        + "", execId=""
        + this.execId
        + "", quoteRespId=""
        + this.quoteRespId
        + "", privateQuote=""
        + this.privateQuote
        + "", side=""
        + this.side
        + "", priceType=""
        + this.priceType
        + "", validUntilTime=""
        + this.validUntilTime
        + "", cashMargin=""
        + this.cashMargin
        + "", counterPartyPbuid=""
        + this.counterPartyPbuid
        + "", memo=""
        + this.memo
        + "", quote1=""
        + this.quote1
        + ""]"";
  }

  // Code generated by fin-protoc. DO NOT EDIT.
  public static class Quote1 implements BinaryCodec {
    private String quoteId;
    private long quotePrice;
    private long quoteQty;

    public String getQuoteId() {
      return this.quoteId;
    }

    public void setQuoteId(String quoteId) {
      this.quoteId = quoteId;
    }

    public long getQuotePrice() {
      return this.quotePrice;
    }

    public void setQuotePrice(long quotePrice) {
      this.quotePrice = quotePrice;
    }

    public long getQuoteQty() {
      return this.quoteQty;
    }

    public void setQuoteQty(long quoteQty) {
      this.quoteQty = quoteQty;
    }

    @Override
    public void encode(ByteBuf byteBuf) {
      writeFixedString(byteBuf, this.quoteId, 10);
      byteBuf.writeLongLE(this.quotePrice);
      byteBuf.writeLongLE(this.quoteQty);
    }

    @Override
    public void decode(ByteBuf byteBuf) {
      this.quoteId = readFixedString(byteBuf, 10);
      this.quotePrice = byteBuf.readLongLE();
      this.quoteQty = byteBuf.readLongLE();
    }

    @Override
    public int hashCode() {
      return Objects.hash(quoteId, quotePrice, quoteQty);
    }

    @Override
    public boolean equals(Object obj) {
      if (this == obj) {
        return true;
      }
      if (null == obj || getClass() != obj.getClass()) {
        return false;
      }
      Quote1 orther_ = (Quote1) obj;
      return Objects.equals(quoteId, orther_.quoteId)
          && Objects.equals(quotePrice, orther_.quotePrice)
          && Objects.equals(quoteQty, orther_.quoteQty);
    }

    @Override
    public String toString() {
      return ""Quote1 [""
          + ""quoteId=""
          + this.quoteId
          + "", quotePrice=""
          + this.quotePrice
          + "", quoteQty=""
          + this.quoteQty
          + ""]"";
    }
  }
}
".

(* bjse-bin/src/main/java/com/finproto/bjse/trade/messages/ReportExtend010.java *)
Definition text_bjse_ReportExtend010 : text :=
"// Code generated by fin-protoc. DO NOT EDIT.
package com.finproto.bjse.trade.messages;

import com.finproto.codec.BinaryCodec;
import io.netty.buffer.ByteBuf;
import java.util.Objects;

public class ReportExtend010 implements BinaryCodec {
  private String cashMargin;
  private String settlType;
  private String settlPeriod;

  public String getCashMargin() {
    return this.cashMargin;
  }

  public void setCashMargin(String cashMargin) {
    this.cashMargin = cashMargin;
  }

  public String getSettlType() {
    return this.settlType;
  }

  public void setSettlType(String settlType) {
    this.settlType = settlType;
  }

  public String getSettlPeriod() {
    return this.settlPeriod;
  }

  public void setSettlPeriod(String settlPeriod) {
    this.settlPeriod = settlPeriod;
  }

  @Override
  public void encode(ByteBuf byteBuf) {
    writeFixedString(byteBuf, this.cashMargin, 1);
    writeFixedString(byteBuf, this.settlType, 1);
    writeFixedString(byteBuf, this.settlPeriod, 1);
  }

  @Override
  public void decode(ByteBuf byteBuf) {
    this.cashMargin = readFixedString(byteBuf, 1);
    this.settlType = readFixedString(byteBuf, 1);
    this.settlPeriod = readFixedString(byteBuf, 1);
  }

  @Override
  public int hashCode() {
    return Objects.hash(cashMargin, settlType, settlPeriod);
  }

  @Override
  public boolean equals(Object obj) {
    if (this == obj) {
      return true;
    }
    if (null == obj || getClass() != obj.getClass()) {
      return false;
    }
    ReportExtend010 orther_ = (ReportExtend010) obj;
    return Objects.equals(cashMargin, orther_.cashMargin)
        && Objects.equals(settlType, orther_.settlType)
        && Objects.equals(settlPeriod, orther_.settlPeriod);
  }

  @Override
  public String toString() {
    return ""ReportExtend010 [""
        + ""cashMargin=""
        + this.cashMargin
        + "", settlType=""
        + this.settlType
        + "", settlPeriod=""
        + this.settlPeriod
        + ""]"";
  }
}
".

(* bjse-bin/src/main/java/com/finproto/bjse/trade/messages/ReportExtend040.java *)
Definition text_bjse_ReportExtend040 : text :=
"// Code generated by fin-protoc. DO NOT EDIT.
package com.finproto.bjse.trade.messages;

import com.finproto.codec.BinaryCodec;
import io.netty.buffer.ByteBuf;
import java.util.Objects;

public class ReportExtend040 implements BinaryCodec {
  private String cashMargin;

  public String getCashMargin() {
    return this.cashMargin;
  }

  public void setCashMargin(String cashMargin) {
    this.cashMargin = cashMargin;
  }

  @Override
  public void encode(ByteBuf byteBuf) {
    writeFixedString(byteBuf, this.cashMargin, 1);
  }

  @Override
  public void decode(ByteBuf byteBuf) {
    this.cashMargin = readFixedString(byteBuf, 1);
  }

  @Override
  public int hashCode() {
    return Objects.hash(cashMargin);
  }

  @Override
  public boolean equals(Object obj) {
    if (this == obj) {
      return true;
    }
    if (null == obj || getClass() != obj.getClass()) {
      return false;
    }
    ReportExtend040 orther_ = (ReportExtend040) obj;
    return Objects.equals(cashMargin, orther_.cashMargin);
  }

  @Override
  public String toString() {
    return ""ReportExtend040 ["" + ""cashMargin="" + this.cashMargin + ""]"";
  }
}
".

(* bjse-bin/src/main/java/com/finproto/bjse/trade/messages/ReportExtend050.java *)
Definition text_bjse_ReportExtend050 : text :=
"// Code generated by fin-protoc. DO NOT EDIT.
package com.finproto.bjse.trade.messages;

import com.finproto.codec.BinaryCodec;
import io.netty.buffer.ByteBuf;
import java.util.Objects;

public class ReportExtend050 implements BinaryCodec {
  private short expirationDays;
  private byte expirationType;
  private int maturityDate;
  private String shareProperty;

  public short getExpirationDays() {
    return this.expirationDays;
  }

  public void setExpirationDays(short expirationDays) {
    this.expirationDays = expirationDays;
  }

  public byte getExpirationType() {
    return this.expirationType;
  }

  public void setExpirationType(byte expirationType) {
    this.expirationType = expirationType;
  }

  public int getMaturityDate() {
    return this.maturityDate;
  }

  public void setMaturityDate(int maturityDate) {
    this.maturityDate = maturityDate;
  }

  public String getShareProperty() {
    return this.shareProperty;
  }

  public void setShareProperty(String shareProperty) {
    this.shareProperty = shareProperty;
  }

  @Override
  public void encode(ByteBuf byteBuf) {
    byteBuf.writeShortLE(this.expirationDays);
    byteBuf.writeByte(this.expirationType);
    byteBuf.writeIntLE(this.maturityDate);
    writeFixedString(byteBuf, this.shareProperty, 2);
  }

  @Override
  public void decode(ByteBuf byteBuf) {
    this.expirationDays = byteBuf.readShortLE();
    this.expirationType = byteBuf.readByte();
    this.maturityDate = byteBuf.readIntLE();
    this.shareProperty = readFixedString(byteBuf, 2);
  }

  @Override
  public int hashCode() {
    return Objects.hash(expirationDays, expirationType, maturityDate, shareProperty);
  }

  @Override
  public boolean equals(Object obj) {
    if (this == obj) {
      return true;
    }
    if (null == obj || getClass() != obj.getClass()) {
      return false;
    }
    ReportExtend050 orther_ = (ReportExtend050) obj;
    return Objects.equals(expirationDays, orther_.expirationDays)
        && Objects.equals(expirationType, orther_.expirationType)
        && Objects.equals(maturityDate, orther_.maturityDate)
        && Objects.equals(shareProperty, orther_.shareProperty);
  }

  @Override
  public String toString() {
    return ""ReportExtend050 [""
        + ""expirationDays=""
        + this.expirationDays
        + "", expirationType=""
        + this.expirationType
        + "", maturityDate=""
        + this.maturityDate
        + "", shareProperty=""
        + this.shareProperty
        + ""]"";
  }
}
".

(* bjse-bin/src/main/java/com/finproto/bjse/trade/messages/ReportFinished.java *)
Definition text_bjse_ReportFinished : text :=
"// Code generated by fin-protoc. DO NOT EDIT.
package com.finproto.bjse.trade.messages;

import com.finproto.codec.BinaryCodec;
import io.netty.buffer.ByteBuf;
import java.util.Objects;

public class ReportFinished implements BinaryCodec {
  private int partitionNo;
  private long reportIndex;
  private short platformId;

  public int getPartitionNo() {
    return this.partitionNo;
  }

  public void setPartitionNo(int partitionNo) {
    this.partitionNo = partitionNo;
  }

  public long getReportIndex() {
    return this.reportIndex;
  }

  public void setReportIndex(long reportIndex) {
    this.reportIndex = reportIndex;
  }

  public short getPlatformId() {
    return this.platformId;
  }

  public void setPlatformId(short platformId) {
    this.platformId = platformId;
  }

  @Override
  public void encode(ByteBuf byteBuf) {
    byteBuf.writeIntLE(this.partitionNo);
    byteBuf.writeLongLE(this.reportIndex);
    byteBuf.writeShortLE(this.platformId);
  }

  @Override
  public void decode(ByteBuf byteBuf) {
    this.partitionNo = byteBuf.readIntLE();
    this.reportIndex = byteBuf.readLongLE();
    this.platformId = byteBuf.readShortLE();
  }

  @Override
  public int hashCode() {
    return Objects.hash(partitionNo, reportIndex, platformId);
  }

  @Override
  public boolean equals(Object obj) {
    if (this == obj) {
      return true;
    }
    if (null == obj || getClass() != obj.getClass()) {
      return false;
    }
    ReportFinished orther_ = (ReportFinished) obj;
    return Objects.equals(partitionNo, orther_.partitionNo)
        && Objects.equals(reportIndex, orther_.reportIndex)
        && Objects.equals(platformId, orther_.platformId);
  }

  @Override
  public String toString() {
    return ""ReportFinished [""
        + ""partitionNo=""
        + this.partitionNo
        + "", reportIndex=""
        + this.reportIndex
        + "", platformId=""
        + this.platformId
        + ""]"";
  }
}
".

(* bjse-bin/src/main/java/com/finproto/bjse/trade/messages/ReportSynchronization.java *)
Definition text_bjse_ReportSynchronization : text :=
"// Code generated by fin-protoc. DO NOT EDIT.
package com.finproto.bjse.trade.messages;

import com.finproto.codec.BinaryCodec;
import io.netty.buffer.ByteBuf;
import java.util.ArrayList;
import java.util.List;
import java.util.Objects;

public class ReportSynchronization implements BinaryCodec {
  private List<ReportPartitionSync> reportPartitionSync;

  public List<ReportPartitionSync> getReportPartitionSync() {
    return this.reportPartitionSync;
  }

  public void setReportPartitionSync(List<ReportPartitionSync> reportPartitionSync) {
    this.reportPartitionSync = reportPartitionSync;
  }

  @Override
  public void encode(ByteBuf byteBuf) {
    if (null == this.reportPartitionSync || this.reportPartitionSync.size() == 0) {
      byteBuf.writeShort(0);
    } else {
      byteBuf.writeShortLE((short) this.reportPartitionSync.size());
      for (int i = 0; i < this.reportPartitionSync.size(); i++) {
        this.reportPartitionSync.get(i).encode(byteBuf);
      }
    }
  }

  @Override
  public void decode(ByteBuf byteBuf) {
    short reportPartitionSyncSize = byteBuf.readShortLE();
    if (reportPartitionSyncSize > 0) {
      this.reportPartitionSync = new ArrayList<>();
      for (int i = 0; i < reportPartitionSyncSize; i++) {
        ReportPartitionSync reportPartitionSync_ = new ReportPartitionSync();
        reportPartitionSync_.decode(byteBuf);
        this.reportPartitionSync.add(reportPartitionSync_);
      }
    }
  }

  @Override
  public int hashCode() {
    return Objects.hash(reportPartitionSync);
  }

  @Override
  public boolean equals(Object obj) {
    if (this == obj) {
      return true;
    }
    if (null == obj || getClass() != obj.getClass()) {
      return false;
    }
    ReportSynchronization orther_ = (ReportSynchronization) obj;
    return Objects.equals(reportPartitionSync, orther_.reportPartitionSync);
  }

  @Override
  public String toString() {
    return ""ReportSynchronization ["" + ""reportPartitionSync="" + this.reportPartitionSync + ""]"";
  }

  // Code generated by fin-protoc. DO NOT EDIT.
  public static class ReportPartitionSync implements BinaryCodec {
    private int partitionNo;
    private long reportIndex;

    public int getPartitionNo() {
      return this.partitionNo;
    }

    public void setPartitionNo(int partitionNo) {
      this.partitionNo = partitionNo;
    }

    public long getReportIndex() {
      return this.reportIndex;
    }

    public void setReportIndex(long reportIndex) {
      this.reportIndex = reportIndex;
    }

    @Override
    public void encode(ByteBuf byteBuf) {
      byteBuf.writeIntLE(this.partitionNo);
      byteBuf.writeLongLE(this.reportIndex);
    }

    @Override
    public void decode(ByteBuf byteBuf) {
      this.partitionNo = byteBuf.readIntLE();
      this.reportIndex = byteBuf.readLongLE();
    }

    @Override
    public int hashCode() {
      return Objects.hash(partitionNo, reportIndex);
    }

    @Override
    public boolean equals(Object obj) {
      if (this == obj) {
        return true;
      }
      if (null == obj || getClass() != obj.getClass()) {
        return false;
      }
      ReportPartitionSync orther_ = (ReportPartitionSync) obj;
      return Objects.equals(partitionNo, orther_.partitionNo)
          && Objects.equals(reportIndex, orther_.reportIndex);
    }

    @Override
    public String toString() {
      return ""ReportPartitionSync [""
          + ""partitionNo=""
          + this.partitionNo
          + "", reportIndex=""
          + this.reportIndex
          + ""]"";
    }
  }
}
".

(* bjse-bin/src/main/java/com/finproto/bjse/trade/messages/TradeCaptureCofirm.java *)
Definition text_bjse_TradeCaptureCofirm : text :=
"// Code generated by fin-protoc. DO NOT EDIT.
package com.finproto.bjse.trade.messages;

import com.finproto.codec.BinaryCodec;
import io.netty.buffer.ByteBuf;
import java.util.HashMap;
import java.util.Map;
import java.util.Objects;
import java.util.function.Supplier;

public class TradeCaptureCofirm implements BinaryCodec {
  private int partitionNo;
  private long reportIndex;
  private String applId;
  private String reportingPbuid;
  private String submittingPbuid;
  private String securityId;
  private String securityIdsource;
  private short ownerType;
  private String clearingFirm;
  private long transactTime;
  private String userInfo;
  private String tradeId;
  private String tradeReportId;
  private byte tradeReportType;
  private byte tradeReportTransType;
  private byte tradeHandlingInstr;
  private long lastPx;
  private long lastQty;
  private short trdType;
  private short trdSubType;
  private int confirmId;
  private String execId;
  private byte side;
  private String pbuid;
  private String accountId;
  private String branchId;
  private String counterPartyPbuid;
  private String counterPartyAccountId;
  private String counterPartyBranchId;
  private BinaryCodec applExtend;

  public int getPartitionNo() {
    return this.partitionNo;
  }

  public void setPartitionNo(int partitionNo) {
    this.partitionNo = partitionNo;
  }

  public long getReportIndex() {
    return this.reportIndex;
  }

  public void setReportIndex(long reportIndex) {
    this.reportIndex = reportIndex;
  }

  public String getApplId() {
    return this.applId;
  }

  public void setApplId(String applId) {
    this.applId = applId;
  }

  public String getReportingPbuid() {
    return this.reportingPbuid;
  }

  public void setReportingPbuid(String reportingPbuid) {
    this.reportingPbuid = reportingPbuid;
  }

  public String getSubmittingPbuid() {
    return this.submittingPbuid;
  }

  public void setSubmittingPbuid(String submittingPbuid) {
    this.submittingPbuid = submittingPbuid;
  }

  public String getSecurityId() {
    return this.securityId;
  }

  public void setSecurityId(String securityId) {
    this.securityId = securityId;
  }

  public String getSecurityIdsource() {
    return this.securityIdsource;
  }

  public void setSecurityIdsource(String securityIdsource) {
    this.securityIdsource = securityIdsource;
  }

  public short getOwnerType() {
    return this.ownerType;
  }

  public void setOwnerType(short ownerType) {
    this.ownerType = ownerType;
  }

  public String getClearingFirm() {
    return this.clearingFirm;
  }

  public void setClearingFirm(String clearingFirm) {
    this.clearingFirm = clearingFirm;
  }

  public long getTransactTime() {
    return this.transactTime;
  }

  public void setTransactTime(long transactTime) {
    this.transactTime = transactTime;
  }

  public String getUserInfo() {
    return this.userInfo;
  }

  public void setUserInfo(String userInfo) {
    this.userInfo = userInfo;
  }

  public String getTradeId() {
    return this.tradeId;
  }

  public void setTradeId(String tradeId) {
    this.tradeId = tradeId;
  }

  public String getTradeReportId() {
    return this.tradeReportId;
  }

  public void setTradeReportId(String tradeReportId) {
    this.tradeReportId = tradeReportId;
  }

  public byte getTradeReportType() {
    return this.tradeReportType;
  }

  public void setTradeReportType(byte tradeReportType) {
    this.tradeReportType = tradeReportType;
  }

  public byte getTradeReportTransType() {
    return this.tradeReportTransType;
  }

  public void setTradeReportTransType(byte tradeReportTransType) {
    this.tradeReportTransType = tradeReportTransType;
  }

  public byte getTradeHandlingInstr() {
    return this.tradeHandlingInstr;
  }

  public void setTradeHandlingInstr(byte tradeHandlingInstr) {
    this.tradeHandlingInstr = tradeHandlingInstr;
  }

  public long getLastPx() {
    return this.lastPx;
  }

  public void setLastPx(long lastPx) {
    this.lastPx = lastPx;
  }

  public long getLastQty() {
    return this.lastQty;
  }

  public void setLastQty(long lastQty) {
    this.lastQty = lastQty;
  }

  public short getTrdType() {
    return this.trdType;
  }

  public void setTrdType(short trdType) {
    this.trdType = trdType;
  }

  public short getTrdSubType() {
    return this.trdSubType;
  }

  public void setTrdSubType(short trdSubType) {
    this.trdSubType = trdSubType;
  }

  public int getConfirmId() {
    return this.confirmId;
  }

  public void setConfirmId(int confirmId) {
    this.confirmId = confirmId;
  }

  public String getExecId() {
    return this.execId;
  }

  public void setExecId(String execId) {
    this.execId = execId;
  }

  public byte getSide() {
    return this.side;
  }

  public void setSide(byte side) {
    this.side = side;
  }

  public String getPbuid() {
    return this.pbuid;
  }

  public void setPbuid(String pbuid) {
    this.pbuid = pbuid;
  }

  public String getAccountId() {
    return this.accountId;
  }

  public void setAccountId(String accountId) {
    this.accountId = accountId;
  }

  public String getBranchId() {
    return this.branchId;
  }

  public void setBranchId(String branchId) {
    this.branchId = branchId;
  }

  public String getCounterPartyPbuid() {
    return this.counterPartyPbuid;
  }

  public void setCounterPartyPbuid(String counterPartyPbuid) {
    this.counterPartyPbuid = counterPartyPbuid;
  }

  public String getCounterPartyAccountId() {
    return this.counterPartyAccountId;
  }

  public void setCounterPartyAccountId(String counterPartyAccountId) {
    this.counterPartyAccountId = counterPartyAccountId;
  }

  public String getCounterPartyBranchId() {
    return this.counterPartyBranchId;
  }

  public void setCounterPartyBranchId(String counterPartyBranchId) {
    this.counterPartyBranchId = counterPartyBranchId;
  }

  public BinaryCodec getApplExtend() {
    return this.applExtend;
  }

  public void setApplExtend(BinaryCodec applExtend) {
    this.applExtend = applExtend;
  }

  @Override
  public void encode(ByteBuf byteBuf) {
    byteBuf.writeIntLE(this.partitionNo);
    byteBuf.writeLongLE(this.reportIndex);
    writeFixedString(byteBuf, this.applId, 3);
    writeFixedString(byteBuf, this.reportingPbuid, 6);
    writeFixedString(byteBuf, this.submittingPbuid, 6);
    writeFixedString(byteBuf, this.securityId, 8);
    writeFixedString(byteBuf, this.securityIdsource, 4);
    byteBuf.writeShortLE(this.ownerType);
    writeFixedString(byteBuf, this.clearingFirm, 2);
    byteBuf.writeLongLE(this.transactTime);
    writeFixedString(byteBuf, this.userInfo, 32);
    writeFixedString(byteBuf, this.tradeId, 16);
    writeFixedString(byteBuf, this.tradeReportId, 10);
    byteBuf.writeByte(this.tradeReportType);
    byteBuf.writeByte(this.tradeReportTransType);
    byteBuf.writeByte(this.tradeHandlingInstr);
    byteBuf.writeLongLE(this.lastPx);
    byteBuf.writeLongLE(this.lastQty);
    byteBuf.writeShortLE(this.trdType);
    byteBuf.writeShortLE(this.trdSubType);
    byteBuf.writeIntLE(this.confirmId);
    writeFixedString(byteBuf, this.execId, 16);
    byteBuf.writeByte(this.side);
    writeFixedString(byteBuf, this.pbuid, 6);
    writeFixedString(byteBuf, this.accountId, 10);
    writeFixedString(byteBuf, this.branchId, 2);
    writeFixedString(byteBuf, this.counterPartyPbuid, 6);
    writeFixedString(byteBuf, this.counterPartyAccountId, 10);
    writeFixedString(byteBuf, this.counterPartyBranchId, 2);
    if (null != this.applExtend) {
      this.applExtend.encode(byteBuf);
    }
  }

  @Override
  public void decode(ByteBuf byteBuf) {
    this.partitionNo = byteBuf.readIntLE();
    this.reportIndex = byteBuf.readLongLE();
    this.applId = readFixedString(byteBuf, 3);
    this.reportingPbuid = readFixedString(byteBuf, 6);
    this.submittingPbuid = readFixedString(byteBuf, 6);
    this.securityId = readFixedString(byteBuf, 8);
    this.securityIdsource = readFixedString(byteBuf, 4);
    this.ownerType = byteBuf.readShortLE();
    this.clearingFirm = readFixedString(byteBuf, 2);
    this.transactTime = byteBuf.readLongLE();
    this.userInfo = readFixedString(byteBuf, 32);
    this.tradeId = readFixedString(byteBuf, 16);
    this.tradeReportId = readFixedString(byteBuf, 10);
    this.tradeReportType = byteBuf.readByte();
    this.tradeReportTransType = byteBuf.readByte();
    this.tradeHandlingInstr = byteBuf.readByte();
    this.lastPx = byteBuf.readLongLE();
    this.lastQty = byteBuf.readLongLE();
    this.trdType = byteBuf.readShortLE();
    this.trdSubType = byteBuf.readShortLE();
    this.confirmId = byteBuf.readIntLE();
    this.execId = readFixedString(byteBuf, 16);
    this.side = byteBuf.readByte();
    this.pbuid = readFixedString(byteBuf, 6);
    this.accountId = readFixedString(byteBuf, 10);
    this.branchId = readFixedString(byteBuf, 2);
    this.counterPartyPbuid = readFixedString(byteBuf, 6);
    this.counterPartyAccountId = readFixedString(byteBuf, 10);
    this.counterPartyBranchId = readFixedString(byteBuf, 2);
    this.applExtend = createApplExtend(this.applId);
    this.applExtend.decode(byteBuf);
  }

  private static final Map<String, Supplier<BinaryCodec>> applExtendMap = new HashMap<>();

  static {
    applExtendMap.put(""031"", TradeCaptureCofirmExtend031::new);
    applExtendMap.put(""051"", TradeCaptureCofirmExtend051::new);
    applExtendMap.put(""060"", TradeCaptureCofirmExtend060::new);
    applExtendMap.put(""061"", TradeCaptureCofirmExtend061::new);
    applExtendMap.put(""062"", TradeCaptureCofirmExtend062::new);
  }

  private BinaryCodec createApplExtend(String applId) {
    Supplier<BinaryCodec> supplier = applExtendMap.get(applId);
    if (null == supplier) {
      throw new IllegalArgumentException(""Unsupported ApplID:"" + applId);
    }
    return supplier.get();
  }

  @Override
  public int hashCode() {
    return Objects.hash(
        partitionNo,
        reportIndex,
        applId,
        reportingPbuid,
        submittingPbuid,
        securityId,
        securityIdsource,
        ownerType,
        clearingFirm,
        transactTime,
        userInfo,
        tradeId,
        tradeReportId,
        tradeReportType,
        tradeReportTransType,
        tradeHandlingInstr,
        lastPx,
        lastQty,
        trdType,
        trdSubType,
        confirmId,
        execId,
        side,
        pbuid,
        accountId,
        branchId,
        counterPartyPbuid,
        counterPartyAccountId,
        counterPartyBranchId,
        applExtend);
  }

  @Override
  public boolean equals(Object obj) {
    if (this == obj) {
      return true;
    }
    if (null == obj || getClass() != obj.getClass()) {
      return false;
    }
    TradeCaptureCofirm orther_ = (TradeCaptureCofirm) obj;
    return Objects.equals(partitionNo, orther_.partitionNo)
        && Objects.equals(reportIndex, orther_.reportIndex)
        && Objects.equals(applId, orther_.applId)
        && Objects.equals(reportingPbuid, orther_.reportingPbuid)
        && Objects.equals(submittingPbuid, orther_.submittingPbuid)
        && Objects.equals(securityId, orther_.securityId)
        && Objects.equals(securityIdsource, orther_.securityIdsource)
        && Objects.equals(ownerType, orther_.ownerType)
        && Objects.equals(clearingFirm, orther_.clearingFirm)
        && Objects.equals(transactTime, orther_.transactTime)
        && Objects.equals(userInfo, orther_.userInfo)
        && Objects.equals(tradeId, orther_.tradeId)
        && Objects.equals(tradeReportId, orther_.tradeReportId)
        && Objects.equals(tradeReportType, orther_.tradeReportType)
        && Objects.equals(tradeReportTransType, orther_.tradeReportTransType)
        && Objects.equals(tradeHandlingInstr, orther_.tradeHandlingInstr)
        && Objects.equals(lastPx, orther_.lastPx)
        && Objects.equals(lastQty, orther_.lastQty)
        && Objects.equals(trdType, orther_.trdType)
        && Objects.equals(trdSubType, orther_.trdSubType)
        && Objects.equals(confirmId, orther_.confirmId)
        && Objects.equals(execId, orther_.execId)
        && Objects.equals(side, orther_.side)
        && Objects.equals(pbuid, orther_.pbuid)
        && Objects.equals(accountId, orther_.accountId)
        && Objects.equals(branchId, orther_.branchId)
        && Objects.equals(counterPartyPbuid, orther_.counterPartyPbuid)
        && Objects.equals(counterPartyAccountId, orther_.counterPartyAccountId)
        && Objects.equals(counterPartyBranchId, orther_.counterPartyBranchId)
        && Objects.equals(applExtend, orther_.applExtend);
  }

  @Override
  public String toString() {
    return ""TradeCaptureCofirm [""
        + ""partitionNo=""
        + this.partitionNo
        + "", reportIndex=""
        + this.reportIndex
        + "", applId=""
        + this.applId
        + "", reportingPbuid=""
        + this.reportingPbuid
        + "", submittingPbuid=""
        + this.submittingPbuid
        + "", securityId=""
        + this.securityId
        + "", securityIdsource=""
        + this.securityIdsource
        + "", ownerType=""
        + this.ownerType
        + "", clearingFirm=""
        + this.clearingFirm
        + "", transactTime=""
        + this.transactTime
        + "", userInfo=""
        + this.userInfo
        + "", tradeId=""
        + this.tradeId
        + "", tradeReportId=""
        + this.tradeReportId
        + "", tradeReportType=""
        + this.tradeReportType
        + "", tradeReportTransType=""
        + this.tradeReportTransType
        + "", tradeHandlingInstr=""
        + this.tradeHandlingInstr
        + "", lastPx=""
        + this.lastPx
        + "", lastQty=""
        + this.lastQty
        + "", trdType=""
        + this.trdType
        + "", trdSubType=""
        + this.trdSubType
        + "", confirmId=""
        + this.confirmId
        + "", execId=""
        + this.execId
        + "", side=""
        + this.side
        + "", pbuid=""
        + this.pbuid
        + "", accountId=""
        + this.accountId
        + "", branchId=""
        + this.branchId
        + "", counterPartyPbuid=""
        + this.counterPartyPbuid
        + "", counterPartyAccountId=""
        + this.counterPartyAccountId
        + "", counterPartyBranchId=""
        + this.counterPartyBranchId
        + "", applExtend=""
        + this.applExtend
        + ""]"";
  }
}
".

(* bjse-bin/src/main/java/com/finproto/bjse/trade/messages/TradeCaptureCofirmExtend031.java *)
Definition text_bjse_TradeCaptureCofirmExtend031 : text :=
"// Code generated by fin-protoc. DO NOT EDIT.
package com.finproto.bjse.trade.messages;

import com.finproto.codec.BinaryCodec;
import io.netty.buffer.ByteBuf;
import java.util.Objects;

public class TradeCaptureCofirmExtend031 implements BinaryCodec {
  private String memberId;
  private String traderCode;
  private String counterPartyMemberId;
  private String counterPartyTraderCode;
  private byte settlType;
  private byte settlPeriod;
  private byte cashMargin;
  private String memo;

  public String getMemberId() {
    return this.memberId;
  }

  public void setMemberId(String memberId) {
    this.memberId = memberId;
  }

  public String getTraderCode() {
    return this.traderCode;
  }

  public void setTraderCode(String traderCode) {
    this.traderCode = traderCode;
  }

  public String getCounterPartyMemberId() {
    return this.counterPartyMemberId;
  }

  public void setCounterPartyMemberId(String counterPartyMemberId) {
    this.counterPartyMemberId = counterPartyMemberId;
  }

  public String getCounterPartyTraderCode() {
    return this.counterPartyTraderCode;
  }

  public void setCounterPartyTraderCode(String counterPartyTraderCode) {
    this.counterPartyTraderCode = counterPartyTraderCode;
  }

  public byte getSettlType() {
    return this.settlType;
  }

  public void setSettlType(byte settlType) {
    this.settlType = settlType;
  }

  public byte getSettlPeriod() {
    return this.settlPeriod;
  }

  public void setSettlPeriod(byte settlPeriod) {
    this.settlPeriod = settlPeriod;
  }

  public byte getCashMargin() {
    return this.cashMargin;
  }

  public void setCashMargin(byte cashMargin) {
    this.cashMargin = cashMargin;
  }

  public String getMemo() {
    return this.memo;
  }

  public void setMemo(String memo) {
    this.memo = memo;
  }

  @Override
  public void encode(ByteBuf byteBuf) {
    writeFixedString(byteBuf, this.memberId, 6);
    writeFixedString(byteBuf, this.traderCode, 5);
    writeFixedString(byteBuf, this.counterPartyMemberId, 6);
    writeFixedString(byteBuf, this.counterPartyTraderCode, 5);
    byteBuf.writeByte(this.settlType);
    byteBuf.writeByte(this.settlPeriod);
    byteBuf.writeByte(this.cashMargin);
    writeFixedString(byteBuf, this.memo, 120);
  }

  @Override
  public void decode(ByteBuf byteBuf) {
    this.memberId = readFixedString(byteBuf, 6);
    this.traderCode = readFixedString(byteBuf, 5);
    this.counterPartyMemberId = readFixedString(byteBuf, 6);
    this.counterPartyTraderCode = readFixedString(byteBuf, 5);
    this.settlType = byteBuf.readByte();
    this.settlPeriod = byteBuf.readByte();
    this.cashMargin = byteBuf.readByte();
    this.memo = readFixedString(byteBuf, 120);
  }

  @Override
  public int hashCode() {
    return Objects.hash(
        memberId,
        traderCode,
        counterPartyMemberId,
        counterPartyTraderCode,
        settlType,
        settlPeriod,
        cashMargin,
        memo);
  }

  @Override
  public boolean equals(Object obj) {
    if (this == obj) {
      return true;
    }
    if (null == obj || getClass() != obj.getClass()) {
      return false;
    }
    TradeCaptureCofirmExtend031 orther_ = (TradeCaptureCofirmExtend031) obj;
    return Objects.equals(memberId, orther_.memberId)
        && Objects.equals(traderCode, orther_.traderCode)
        && Objects.equals(counterPartyMemberId, orther_.counterPartyMemberId)
        && Objects.equals(counterPartyTraderCode, orther_.counterPartyTraderCode)
        && Objects.equals(settlType, orther_.settlType)
        && Objects.equals(settlPeriod, orther_.settlPeriod)
        && Objects.equals(cashMargin, orther_.cashMargin)
        && Objects.equals(memo, orther_.memo);
  }

  @Override
  public String toString() {
    return ""TradeCaptureCofirmExtend031 [""
        + ""memberId=""
        + this.memberId
        + "", traderCode=""
        + this.traderCode
        + "", counterPartyMemberId=""
        + this.counterPartyMemberId
        + "", counterPartyTraderCode=""
        + this.counterPartyTraderCode
        + "", settlType=""
        + this.settlType
        + "", settlPeriod=""
        + this.settlPeriod
        + "", cashMargin=""
        + this.cashMargin
        + "", memo=""
        + this.memo
        + ""]"";
  }
}
".

(* bjse-bin/src/main/java/com/finproto/bjse/trade/messages/TradeCaptureCofirmExtend051.java *)
Definition text_bjse_TradeCaptureCofirmExtend051 : text :=
"// Code generated by fin-protoc. DO NOT EDIT.
package com.finproto.bjse.trade.messages;

import com.finproto.codec.BinaryCodec;
import io.netty.buffer.ByteBuf;
import java.util.Objects;

public class TradeCaptureCofirmExtend051 implements BinaryCodec {
  private short expirationDays;
  private byte expirationType;
  private int maturityDate;
  private String shareProperty;

  public short getExpirationDays() {
    return this.expirationDays;
  }

  public void setExpirationDays(short expirationDays) {
    this.expirationDays = expirationDays;
  }

  public byte getExpirationType() {
    return this.expirationType;
  }

  public void setExpirationType(byte expirationType) {
    this.expirationType = expirationType;
  }

  public int getMaturityDate() {
    return this.maturityDate;
  }

  public void setMaturityDate(int maturityDate) {
    this.maturityDate = maturityDate;
  }

  public String getShareProperty() {
    return this.shareProperty;
  }

  public void setShareProperty(String shareProperty) {
    this.shareProperty = shareProperty;
  }

  @Override
  public void encode(ByteBuf byteBuf) {
    byteBuf.writeShortLE(this.expirationDays);
    byteBuf.writeByte(this.expirationType);
    byteBuf.writeIntLE(this.maturityDate);
    writeFixedString(byteBuf, this.shareProperty, 2);
  }

  @Override
  public void decode(ByteBuf byteBuf) {
    this.expirationDays = byteBuf.readShortLE();
    this.expirationType = byteBuf.readByte();
    this.maturityDate = byteBuf.readIntLE();
    this.shareProperty = readFixedString(byteBuf, 2);
  }

  @Override
  public int hashCode() {
    return Objects.hash(expirationDays, expirationType, maturityDate, shareProperty);
  }

  @Override
  public boolean equals(Object obj) {
    if (this == obj) {
      return true;
    }
    if (null == obj || getClass() != obj.getClass()) {
      return false;
    }
    TradeCaptureCofirmExtend051 orther_ = (TradeCaptureCofirmExtend051) obj;
    return Objects.equals(expirationDays, orther_.expirationDays)
        && Objects.equals(expirationType, orther_.expirationType)
        && Objects.equals(maturityDate, orther_.maturityDate)
        && Objects.equals(shareProperty, orther_.shareProperty);
  }

  @Override
  public String toString() {
    return ""TradeCaptureCofirmExtend051 [""
        + ""expirationDays=""
        + this.expirationDays
        + "", expirationType=""
        + this.expirationType
        + "", maturityDate=""
        + this.maturityDate
        + "", shareProperty=""
        + this.shareProperty
        + ""]"";
  }
}
".

(* bjse-bin/src/main/java/com/finproto/bjse/trade/messages/TradeCaptureCofirmExtend060.java *)
Definition text_bjse_TradeCaptureCofirmExtend060 : text :=
"// Code generated by fin-protoc. DO NOT EDIT.
package com.finproto.bjse.trade.messages;

import com.finproto.codec.BinaryCodec;
import io.netty.buffer.ByteBuf;

public class TradeCaptureCofirmExtend060 implements BinaryCodec {

  @Override
  public void encode(ByteBuf byteBuf) {}

  @Override
  public void decode(ByteBuf byteBuf) {}

  @Override
  public int hashCode() {
    return this.hashCode();
  }

  @Override
  public boolean equals(Object obj) {
    if (this == obj) {
      return true;
    }
    if (null == obj || getClass() != obj.getClass()) {
      return false;
    }
    return true;
  }

  @Override
  public String toString() {
    return ""TradeCaptureCofirmExtend060 []"";
  }
}
".

(* bjse-bin/src/main/java/com/finproto/bjse/trade/messages/TradeCaptureCofirmExtend061.java *)
Definition text_bjse_TradeCaptureCofirmExtend061 : text :=
"// Code generated by fin-protoc. DO NOT EDIT.
package com.finproto.bjse.trade.messages;

import com.finproto.codec.BinaryCodec;
import io.netty.buffer.ByteBuf;

public class TradeCaptureCofirmExtend061 implements BinaryCodec {

  @Override
  public void encode(ByteBuf byteBuf) {}

  @Override
  public void decode(ByteBuf byteBuf) {}

  @Override
  public int hashCode() {
    return this.hashCode();
  }

  @Override
  public boolean equals(Object obj) {
    if (this == obj) {
      return true;
    }
    if (null == obj || getClass() != obj.getClass()) {
      return false;
    }
    return true;
  }

  @Override
  public String toString() {
    return ""TradeCaptureCofirmExtend061 []"";
  }
}
".

(* bjse-bin/src/main/java/com/finproto/bjse/trade/messages/TradeCaptureCofirmExtend062.java *)
Definition text_bjse_TradeCaptureCofirmExtend062 : text :=
"// Code generated by fin-protoc. DO NOT EDIT.
package com.finproto.bjse.trade.messages;

import com.finproto.codec.BinaryCodec;
import io.netty.buffer.ByteBuf;
import java.util.Objects;

public class TradeCaptureCofirmExtend062 implements BinaryCodec {
  private byte cashMargin;

  public byte getCashMargin() {
    return this.cashMargin;
  }

  public void setCashMargin(byte cashMargin) {
    this.cashMargin = cashMargin;
  }

  @Override
  public void encode(ByteBuf byteBuf) {
    byteBuf.writeByte(this.cashMargin);
  }

  @Override
  public void decode(ByteBuf byteBuf) {
    this.cashMargin = byteBuf.readByte();
  }

  @Override
  public int hashCode() {
    return Objects.hash(cashMargin);
  }

  @Override
  public boolean equals(Object obj) {
    if (this == obj) {
      return true;
    }
    if (null == obj || getClass() != obj.getClass()) {
      return false;
    }
    TradeCaptureCofirmExtend062 orther_ = (TradeCaptureCofirmExtend062) obj;
    return Objects.equals(cashMargin, orther_.cashMargin);
  }

  @Override
  public String toString() {
    return ""TradeCaptureCofirmExtend062 ["" + ""cashMargin="" + this.cashMargin + ""]"";
  }
}
".

(* bjse-bin/src/main/java/com/finproto/bjse/trade/messages/TradeCaptureConfirm.java *)
Definition text_bjse_TradeCaptureConfirm : text :=
"// Code generated by fin-protoc. DO NOT EDIT.
package com.finproto.bjse.trade.messages;

import com.finproto.codec.BinaryCodec;
import io.netty.buffer.ByteBuf;
import java.util.HashMap;
import java.util.Map;
import java.util.Objects;
import java.util.function.Supplier;

public class TradeCaptureConfirm implements BinaryCodec {
  private int partitionNo;
  private long reportIndex;
  private String applId;
  private String reportingPbuid;
  private String submittingPbuid;
  private String securityId;
  private String securityIdsource;
  private short ownerType;
  private String clearingFirm;
  private long transactTime;
  private String userInfo;
  private String tradeId;
  private String tradeReportId;
  private byte tradeReportType;
  private byte tradeReportTransType;
  private String tradeHandlingInstr;
  private long lastPx;
  private long lastQty;
  private short trdType;
  private short trdSubType;
  private int confirmId;
  private String execId;
  private String side;
  private String pbuid;
  private String accountId;
  private String branchId;
  private String counterPartyPbuid;
  private String counterPartyAccountId;
  private String counterPartyBranchId;
  private BinaryCodec applExtend;

  public int getPartitionNo() {
    return this.partitionNo;
  }

  public void setPartitionNo(int partitionNo) {
    this.partitionNo = partitionNo;
  }

  public long getReportIndex() {
    return this.reportIndex;
  }

  public void setReportIndex(long reportIndex) {
    this.reportIndex = reportIndex;
  }

  public String getApplId() {
    return this.applId;
  }

  public void setApplId(String applId) {
    this.applId = applId;
  }

  public String getReportingPbuid() {
    return this.reportingPbuid;
  }

  public void setReportingPbuid(String reportingPbuid) {
    this.reportingPbuid = reportingPbuid;
  }

  public String getSubmittingPbuid() {
    return this.submittingPbuid;
  }

  public void setSubmittingPbuid(String submittingPbuid) {
    this.submittingPbuid = submittingPbuid;
  }

  public String getSecurityId() {
    return this.securityId;
  }

  public void setSecurityId(String securityId) {
    this.securityId = securityId;
  }

  public String getSecurityIdsource() {
    return this.securityIdsource;
  }

  public void setSecurityIdsource(String securityIdsource) {
    this.securityIdsource = securityIdsource;
  }

  public short getOwnerType() {
    return this.ownerType;
  }

  public void setOwnerType(short ownerType) {
    this.ownerType = ownerType;
  }

  public String getClearingFirm() {
    return this.clearingFirm;
  }

  public void setClearingFirm(String clearingFirm) {
    this.clearingFirm = clearingFirm;
  }

  public long getTransactTime() {
    return this.transactTime;
  }

  public void setTransactTime(long transactTime) {
    this.transactTime = transactTime;
  }

  public String getUserInfo() {
    return this.userInfo;
  }

  public void setUserInfo(String userInfo) {
    this.userInfo = userInfo;
  }

  public String getTradeId() {
    return this.tradeId;
  }

  public void setTradeId(String tradeId) {
    this.tradeId = tradeId;
  }

  public String getTradeReportId() {
    return this.tradeReportId;
  }

  public void setTradeReportId(String tradeReportId) {
    this.tradeReportId = tradeReportId;
  }

  public byte getTradeReportType() {
    return this.tradeReportType;
  }

  public void setTradeReportType(byte tradeReportType) {
    this.tradeReportType = tradeReportType;
  }

  public byte getTradeReportTransType() {
    return this.tradeReportTransType;
  }

  public void setTradeReportTransType(byte tradeReportTransType) {
    this.tradeReportTransType = tradeReportTransType;
  }

  public String getTradeHandlingInstr() {
    return this.tradeHandlingInstr;
  }

  public void setTradeHandlingInstr(String tradeHandlingInstr) {
    this.tradeHandlingInstr = tradeHandlingInstr;
  }

  public long getLastPx() {
    return this.lastPx;
  }

  public void setLastPx(long lastPx) {
    this.lastPx = lastPx;
  }

  public long getLastQty() {
    return this.lastQty;
  }

  public void setLastQty(long lastQty) {
    this.lastQty = lastQty;
  }

  public short getTrdType() {
    return this.trdType;
  }

  public void setTrdType(short trdType) {
    this.trdType = trdType;
  }

  public short getTrdSubType() {
    return this.trdSubType;
  }

  public void setTrdSubType(short trdSubType) {
    this.trdSubType = trdSubType;
  }

  public int getConfirmId() {
    return this.confirmId;
  }

  public void setConfirmId(int confirmId) {
    this.confirmId = confirmId;
  }

  public String getExecId() {
    return this.execId;
  }

  public void setExecId(String execId) {
    this.execId = execId;
  }

  public String getSide() {
    return this.side;
  }

  public void setSide(String side) {
    this.side = side;
  }

  public String getPbuid() {
    return this.pbuid;
  }

  public void setPbuid(String pbuid) {
    this.pbuid = pbuid;
  }

  public String getAccountId() {
    return this.accountId;
  }

  public void setAccountId(String accountId) {
    this.accountId = accountId;
  }

  public String getBranchId() {
    return this.branchId;
  }

  public void setBranchId(String branchId) {
    this.branchId = branchId;
  }

  public String getCounterPartyPbuid() {
    return this.counterPartyPbuid;
  }

  public void setCounterPartyPbuid(String counterPartyPbuid) {
    this.counterPartyPbuid = counterPartyPbuid;
  }

  public String getCounterPartyAccountId() {
    return this.counterPartyAccountId;
  }

  public void setCounterPartyAccountId(String counterPartyAccountId) {
    this.counterPartyAccountId = counterPartyAccountId;
  }

  public String getCounterPartyBranchId() {
    return this.counterPartyBranchId;
  }

  public void setCounterPartyBranchId(String counterPartyBranchId) {
    this.counterPartyBranchId = counterPartyBranchId;
  }

  public BinaryCodec getApplExtend() {
    return this.applExtend;
  }

  public void setApplExtend(BinaryCodec applExtend) {
    this.applExtend = applExtend;
  }

  @Override
  public void encode(ByteBuf byteBuf) {
    byteBuf.writeIntLE(this.partitionNo);
    byteBuf.writeLongLE(this.reportIndex);
    writeFixedString(byteBuf, this.applId, 3);
    writeFixedString(byteBuf, this.reportingPbuid, 6);
    writeFixedString(byteBuf, this.submittingPbuid, 6);
    writeFixedString(byteBuf, this.securityId, 8);
    writeFixedString(byteBuf, this.securityIdsource, 4);
    byteBuf.writeShortLE(this.ownerType);
    writeFixedString(byteBuf, this.clearingFirm, 2);
    byteBuf.writeLongLE(this.transactTime);
    writeFixedString(byteBuf, this.userInfo, 32);
    writeFixedString(byteBuf, this.tradeId, 16);
    writeFixedString(byteBuf, this.tradeReportId, 10);
    byteBuf.writeByte(this.tradeReportType);
    byteBuf.writeByte(this.tradeReportTransType);
    writeFixedString(byteBuf, this.tradeHandlingInstr, 1);
    byteBuf.writeLongLE(this.lastPx);
    byteBuf.writeLongLE(this.lastQty);
    byteBuf.writeShortLE(this.trdType);
    byteBuf.writeShortLE(this.trdSubType);
    byteBuf.writeIntLE(this.confirmId);
    writeFixedString(byteBuf, this.execId, 16);
    writeFixedString(byteBuf, this.side, 1);
    writeFixedString(byteBuf, this.pbuid, 6);
    writeFixedString(byteBuf, this.accountId, 10);
    writeFixedString(byteBuf, this.branchId, 2);
    writeFixedString(byteBuf, this.counterPartyPbuid, 6);
    writeFixedString(byteBuf, this.counterPartyAccountId, 10);
    writeFixedString(byteBuf, this.counterPartyBranchId, 2);
    if (null != this.applExtend) {
      this.applExtend.encode(byteBuf);
    }
  }

  @Override
  public void decode(ByteBuf byteBuf) {
    this.partitionNo = byteBuf.readIntLE();
    this.reportIndex = byteBuf.readLongLE();
    this.applId = readFixedString(byteBuf, 3);
    this.reportingPbuid = readFixedString(byteBuf, 6);
    this.submittingPbuid = readFixedString(byteBuf, 6);
    this.securityId = readFixedString(byteBuf, 8);
    this.securityIdsource = readFixedString(byteBuf, 4);
    this.ownerType = byteBuf.readShortLE();
    this.clearingFirm = readFixedString(byteBuf, 2);
    this.transactTime = byteBuf.readLongLE();
    this.userInfo = readFixedString(byteBuf, 32);
    this.tradeId = readFixedString(byteBuf, 16);
    this.tradeReportId = readFixedString(byteBuf, 10);
    this.tradeReportType = byteBuf.readByte();
    this.tradeReportTransType = byteBuf.readByte();
    this.tradeHandlingInstr = readFixedString(byteBuf, 1);
    this.lastPx = byteBuf.readLongLE();
    this.lastQty = byteBuf.readLongLE();
    this.trdType = byteBuf.readShortLE();
    this.trdSubType = byteBuf.readShortLE();
    this.confirmId = byteBuf.readIntLE();
    this.execId = readFixedString(byteBuf, 16);
    this.side = readFixedString(byteBuf, 1);
    this.pbuid = readFixedString(byteBuf, 6);
    this.accountId = readFixedString(byteBuf, 10);
    this.branchId = readFixedString(byteBuf, 2);
    this.counterPartyPbuid = readFixedString(byteBuf, 6);
    this.counterPartyAccountId = readFixedString(byteBuf, 10);
    this.counterPartyBranchId = readFixedString(byteBuf, 2);
    this.applExtend = ApplExtendMessageFactory.getInstance().create(this.applId);
    this.applExtend.decode(byteBuf);
  }

  @Override
  public int hashCode() {
    return Objects.hash(
        partitionNo,
        reportIndex,
        applId,
        reportingPbuid,
        submittingPbuid,
        securityId,
        securityIdsource,
        ownerType,
        clearingFirm,
        transactTime,
        userInfo,
        tradeId,
        tradeReportId,
        tradeReportType,
        tradeReportTransType,
        tradeHandlingInstr,
        lastPx,
        lastQty,
        trdType,
        trdSubType,
        confirmId,
        execId,
        side,
        pbuid,
        accountId,
        branchId,
        counterPartyPbuid,
        counterPartyAccountId,
        counterPartyBranchId,
        applExtend);
  }

  @Override
  public boolean equals(Object obj) {
    if (this == obj) {
      return true;
    }
    if (null == obj || getClass() != obj.getClass()) {
      return false;
    }
    TradeCaptureConfirm orther_ = (TradeCaptureConfirm) obj;
    return Objects.equals(partitionNo, orther_.partitionNo)
        && Objects.equals(reportIndex, orther_.reportIndex)
        && Objects.equals(applId, orther_.applId)
        && Objects.equals(reportingPbuid, orther_.reportingPbuid)
        && Objects.equals(submittingPbuid, orther_.submittingPbuid)
        && Objects.equals(securityId, orther_.securityId)
        && Objects.equals(securityIdsource, orther_.securityIdsource)
        && Objects.equals(ownerType, orther_.ownerType)
        && Objects.equals(clearingFirm, orther_.clearingFirm)
        && Objects.equals(transactTime, orther_.transactTime)
        && Objects.equals(userInfo, orther_.userInfo)
        && Objects.equals(tradeId, orther_.tradeId)
        && Objects.equals(tradeReportId, orther_.tradeReportId)
        && Objects.equals(tradeReportType, orther_.tradeReportType)
        && Objects.equals(tradeReportTransType, orther_.tradeReportTransType)
        && Objects.equals(tradeHandlingInstr, orther_.tradeHandlingInstr)
        && Objects.equals(lastPx, orther_.lastPx)
        && Objects.equals(lastQty, orther_.lastQty)
        && Objects.equals(trdType, orther_.trdType)
        && Objects.equals(trdSubType, orther_.trdSubType)
        && Objects.equals(confirmId, orther_.confirmId)
        && Objects.equals(execId, orther_.execId)
        && Objects.equals(side, orther_.side)
        && Objects.equals(pbuid, orther_.pbuid)
        && Objects.equals(accountId, orther_.accountId)
        && Objects.equals(branchId, orther_.branchId)
        && Objects.equals(counterPartyPbuid, orther_.counterPartyPbuid)
        && Objects.equals(counterPartyAccountId, orther_.counterPartyAccountId)
        && Objects.equals(counterPartyBranchId, orther_.counterPartyBranchId)
        && Objects.equals(applExtend, orther_.applExtend);
  }

  @Override
  public String toString() {
    return ""TradeCaptureConfirm [""
        + ""partitionNo=""
        + this.partitionNo
        + "", reportIndex=""
        + this.reportIndex
        + "", applId=""
        + this.applId
        + "", reportingPbuid=""
        + this.reportingPbuid
        + "", submittingPbuid=""
        + this.submittingPbuid
        + "", securityId=""
        + this.securityId
        + "", securityIdsource=""
        + this.securityIdsource
        + "", ownerType=""
        + this.ownerType
        + "", clearingFirm=""
        + this.clearingFirm
        + "", transactTime=""
        + this.transactTime
        + "", userInfo=""
        + this.userInfo
        + "", tradeId=""
        + this.tradeId
        + "", tradeReportId=""
        + this.tradeReportId
        + "", tradeReportType=""
        + this.tradeReportType
        + "", tradeReportTransType=""
        + this.tradeReportTransType
        + "", tradeHandlingInstr=""
        + this.tradeHandlingInstr
        + "", lastPx=""
        + this.lastPx
        + "", lastQty=""
        + this.lastQty
        + "", trdType=""
        + this.trdType
        + "", trdSubType=""
        + this.trdSubType
        + "", confirmId=""
        + this.confirmId
        + "", execId=""
        + this.execId
        + "", side=""
        + this.side
        + "", pbuid=""
        + this.pbuid
        + "", accountId=""
        + this.accountId
        + "", branchId=""
        + this.branchId
        + "", counterPartyPbuid=""
        + this.counterPartyPbuid
        + "", counterPartyAccountId=""
        + this.counterPartyAccountId
        + "", counterPartyBranchId=""
        + this.counterPartyBranchId
        + "", applExtend=""
        + this.applExtend
        + ""]"";
  }

  public static enum ApplExtendMessageFactory {
    INSTANCE;
    private final Map<String, Supplier<BinaryCodec>> applExtendMap = new HashMap<>();

    static {
      getInstance().register(""031"", TradeCaptureConfirmExtend031::new);
      getInstance().register(""051"", TradeCaptureConfirmExtend051::new);
      getInstance().register(""060"", TradeCaptureConfirmExtend060::new);
      getInstance().register(""061"", TradeCaptureConfirmExtend061::new);
      getInstance().register(""062"", TradeCaptureConfirmExtend062::new);
    }

    public BinaryCodec create(String applId) {
      Supplier<BinaryCodec> supplier = applExtendMap.get(applId);
      if (null == supplier) {
        throw new IllegalArgumentException(""Unsupported ApplID:"" + applId);
      }
      return supplier.get();
    }

    public void register(String applId, Supplier<BinaryCodec> supplier) {
      applExtendMap.put(applId, supplier);
    }

    public boolean remove(String applId) {
      return null != applExtendMap.remove(applId);
    }

    public static ApplExtendMessageFactory getInstance() {
      return INSTANCE;
    }
  }
}
".

(* bjse-bin/src/main/java/com/finproto/bjse/trade/messages/TradeCaptureConfirmExtend031.java *)
Definition text_bjse_TradeCaptureConfirmExtend031 : text :=
"// Code generated by fin-protoc. DO NOT EDIT.
package com.finproto.bjse.trade.messages;

import com.finproto.codec.BinaryCodec;
import io.netty.buffer.ByteBuf;
import java.util.Objects;

public class TradeCaptureConfirmExtend031 implements BinaryCodec {
  private String memberId;
  private String traderCode;
  private String counterPartyMemberId;
  private String counterPartyTraderCode;
  private String settlType;
  private String settlPeriod;
  private String cashMargin;
  private String memo;

  public String getMemberId() {
    return this.memberId;
  }

  public void setMemberId(String memberId) {
    this.memberId = memberId;
  }

  public String getTraderCode() {
    return this.traderCode;
  }

  public void setTraderCode(String traderCode) {
    this.traderCode = traderCode;
  }

  public String getCounterPartyMemberId() {
    return this.counterPartyMemberId;
  }

  public void setCounterPartyMemberId(String counterPartyMemberId) {
    this.counterPartyMemberId = counterPartyMemberId;
  }

  public String getCounterPartyTraderCode() {
    return this.counterPartyTraderCode;
  }

  public void setCounterPartyTraderCode(String counterPartyTraderCode) {
    this.counterPartyTraderCode = counterPartyTraderCode;
  }

  public String getSettlType() {
    return this.settlType;
  }

  public void setSettlType(String settlType) {
    this.settlType = settlType;
  }

  public String getSettlPeriod() {
    return this.settlPeriod;
  }

  public void setSettlPeriod(String settlPeriod) {
    this.settlPeriod = settlPeriod;
  }

  public String getCashMargin() {
    return this.cashMargin;
  }

  public void setCashMargin(String cashMargin) {
    this.cashMargin = cashMargin;
  }

  public String getMemo() {
    return this.memo;
  }

  public void setMemo(String memo) {
    this.memo = memo;
  }

  @Override
  public void encode(ByteBuf byteBuf) {
    writeFixedString(byteBuf, this.memberId, 6);
    writeFixedString(byteBuf, this.traderCode, 5);
    writeFixedString(byteBuf, this.counterPartyMemberId, 6);
    writeFixedString(byteBuf, this.counterPartyTraderCode, 5);
    writeFixedString(byteBuf, this.settlType, 1);
    writeFixedString(byteBuf, this.settlPeriod, 1);
    writeFixedString(byteBuf, this.cashMargin, 1);
    writeFixedString(byteBuf, this.memo, 120);
  }

  @Override
  public void decode(ByteBuf byteBuf) {
    this.memberId = readFixedString(byteBuf, 6);
    this.traderCode = readFixedString(byteBuf, 5);
    this.counterPartyMemberId = readFixedString(byteBuf, 6);
    this.counterPartyTraderCode = readFixedString(byteBuf, 5);
    this.settlType = readFixedString(byteBuf, 1);
    this.settlPeriod = readFixedString(byteBuf, 1);
    this.cashMargin = readFixedString(byteBuf, 1);
    this.memo = readFixedString(byteBuf, 120);
  }

  @Override
  public int hashCode() {
    return Objects.hash(
        memberId,
        traderCode,
        counterPartyMemberId,
        counterPartyTraderCode,
        settlType,
        settlPeriod,
        cashMargin,
        memo);
  }

  @Override
  public boolean equals(Object obj) {
    if (this == obj) {
      return true;
    }
    if (null == obj || getClass() != obj.getClass()) {
      return false;
    }
    TradeCaptureConfirmExtend031 orther_ = (TradeCaptureConfirmExtend031) obj;
    return Objects.equals(memberId, orther_.memberId)
        && Objects.equals(traderCode, orther_.traderCode)
        && Objects.equals(counterPartyMemberId, orther_.counterPartyMemberId)
        && Objects.equals(counterPartyTraderCode, orther_.counterPartyTraderCode)
        && Objects.equals(settlType, orther_.settlType)
        && Objects.equals(settlPeriod, orther_.settlPeriod)
        && Objects.equals(cashMargin, orther_.cashMargin)
        && Objects.equals(memo, orther_.memo);
  }

  @Override
  public String toString() {
    return ""TradeCaptureConfirmExtend031 [""
        + ""memberId=""
        + this.memberId
        + "", traderCode=""
        + this.traderCode
        + "", counterPartyMemberId=""
        + this.counterPartyMemberId
        + "", counterPartyTraderCode=""
        + this.counterPartyTraderCode
        + "", settlType=""
        + this.settlType
        + "", settlPeriod=""
        + this.settlPeriod
        + "", cashMargin=""
        + this.cashMargin
        + "", memo=""
        + this.memo
        + ""]"";
  }
}
".

(* bjse-bin/src/main/java/com/finproto/bjse/trade/messages/TradeCaptureConfirmExtend051.java *)
Definition text_bjse_TradeCaptureConfirmExtend051 : text :=
"// Code generated by fin-protoc. DO NOT EDIT.
package com.finproto.bjse.trade.messages;

import com.finproto.codec.BinaryCodec;
import io.netty.buffer.ByteBuf;
import java.util.Objects;

public class TradeCaptureConfirmExtend051 implements BinaryCodec {
  private short expirationDays;
  private byte expirationType;
  private int maturityDate;
  private String shareProperty;

  public short getExpirationDays() {
    return this.expirationDays;
  }

  public void setExpirationDays(short expirationDays) {
    this.expirationDays = expirationDays;
  }

  public byte getExpirationType() {
    return this.expirationType;
  }

  public void setExpirationType(byte expirationType) {
    this.expirationType = expirationType;
  }

  public int getMaturityDate() {
    return this.maturityDate;
  }

  public void setMaturityDate(int maturityDate) {
    this.maturityDate = maturityDate;
  }

  public String getShareProperty() {
    return this.shareProperty;
  }

  public void setShareProperty(String shareProperty) {
    this.shareProperty = shareProperty;
  }

  @Override
  public void encode(ByteBuf byteBuf) {
    byteBuf.writeShortLE(this.expirationDays);
    byteBuf.writeByte(this.expirationType);
    byteBuf.writeIntLE(this.maturityDate);
    writeFixedString(byteBuf, this.shareProperty, 2);
  }

  @Override
  public void decode(ByteBuf byteBuf) {
    this.expirationDays = byteBuf.readShortLE();
    this.expirationType = byteBuf.readByte();
    this.maturityDate = byteBuf.readIntLE();
    this.shareProperty = readFixedString(byteBuf, 2);
  }

  @Override
  public int hashCode() {
    return Objects.hash(expirationDays, expirationType, maturityDate, shareProperty);
  }

  @Override
  public boolean equals(Object obj) {
    if (this == obj) {
      return true;
    }
    if (null == obj || getClass() != obj.getClass()) {
      return false;
    }
    TradeCaptureConfirmExtend051 orther_ = (TradeCaptureConfirmExtend051) obj;
    return Objects.equals(expirationDays, orther_.expirationDays)
        && Objects.equals(expirationType, orther_.expirationType)
        && Objects.equals(maturityDate, orther_.maturityDate)
        && Objects.equals(shareProperty, orther_.shareProperty);
  }

  @Override
  public String toString() {
    return ""TradeCaptureConfirmExtend051 [""
        + ""expirationDays=""
        + this.expirationDays
        + "", expirationType=""
        + this.expirationType
        + "", maturityDate=""
        + this.maturityDate
        + "", shareProperty=""
        + this.shareProperty
        + ""]"";
  }
}
".

(* bjse-bin/src/main/java/com/finproto/bjse/trade/messages/TradeCaptureConfirmExtend060.java *)
Definition text_bjse_TradeCaptureConfirmExtend060 : text :=
"// Code generated by fin-protoc. DO NOT EDIT.
package com.finproto.bjse.trade.messages;

import com.finproto.codec.BinaryCodec;
import io.netty.buffer.ByteBuf;

public class TradeCaptureConfirmExtend060 implements BinaryCodec {

  @Override
  public void encode(ByteBuf byteBuf) {}

  @Override
  public void decode(ByteBuf byteBuf) {}

  @Override
  public int hashCode() {
    return this.hashCode();
  }

  @Override
  public boolean equals(Object obj) {
    if (this == obj) {
      return true;
    }
    if (null == obj || getClass() != obj.getClass()) {
      return false;
    }
    return true;
  }

  @Override
  public String toString() {
    return ""TradeCaptureConfirmExtend060 []"";
  }
}
".

(* bjse-bin/src/main/java/com/finproto/bjse/trade/messages/TradeCaptureConfirmExtend061.java *)
Definition text_bjse_TradeCaptureConfirmExtend061 : text :=
"// Code generated by fin-protoc. DO NOT EDIT.
package com.finproto.bjse.trade.messages;

import com.finproto.codec.BinaryCodec;
import io.netty.buffer.ByteBuf;

public class TradeCaptureConfirmExtend061 implements BinaryCodec {

  @Override
  public void encode(ByteBuf byteBuf) {}

  @Override
  public void decode(ByteBuf byteBuf) {}

  @Override
  public int hashCode() {
    return this.hashCode();
  }

  @Override
  public boolean equals(Object obj) {
    if (this == obj) {
      return true;
    }
    if (null == obj || getClass() != obj.getClass()) {
      return false;
    }
    return true;
  }

  @Override
  public String toString() {
    return ""TradeCaptureConfirmExtend061 []"";
  }
}
".

(* bjse-bin/src/main/java/com/finproto/bjse/trade/messages/TradeCaptureConfirmExtend062.java *)
Definition text_bjse_TradeCaptureConfirmExtend062 : text :=
"// Code generated by fin-protoc. DO NOT EDIT.
package com.finproto.bjse.trade.messages;

import com.finproto.codec.BinaryCodec;
import io.netty.buffer.ByteBuf;
import java.util.Objects;

public class TradeCaptureConfirmExtend062 implements BinaryCodec {
  private String cashMargin;

  public String getCashMargin() {
    return this.cashMargin;
  }

  public void setCashMargin(String cashMargin) {
    this.cashMargin = cashMargin;
  }

  @Override
  public void encode(ByteBuf byteBuf) {
    writeFixedString(byteBuf, this.cashMargin, 1);
  }

  @Override
  public void decode(ByteBuf byteBuf) {
    this.cashMargin = readFixedString(byteBuf, 1);
  }

  @Override
  public int hashCode() {
    return Objects.hash(cashMargin);
  }

  @Override
  public boolean equals(Object obj) {
    if (this == obj) {
      return true;
    }
    if (null == obj || getClass() != obj.getClass()) {
      return false;
    }
    TradeCaptureConfirmExtend062 orther_ = (TradeCaptureConfirmExtend062) obj;
    return Objects.equals(cashMargin, orther_.cashMargin);
  }

  @Override
  public String toString() {
    return ""TradeCaptureConfirmExtend062 ["" + ""cashMargin="" + this.cashMargin + ""]"";
  }
}
".

(* bjse-bin/src/main/java/com/finproto/bjse/trade/messages/TradeCaptureReport.java *)
Definition text_bjse_TradeCaptureReport : text :=
"// Code generated by fin-protoc. DO NOT EDIT.
package com.finproto.bjse.trade.messages;

import com.finproto.codec.BinaryCodec;
import io.netty.buffer.ByteBuf;
import java.util.HashMap;
import java.util.Map;
import java.util.Objects;
import java.util.function.Supplier;

public class TradeCaptureReport implements BinaryCodec {
  private String applId;
  private String submittingPbuid;
  private String securityId;
  private String securityIdsource;
  private short ownerType;
  private String clearingFirm;
  private long transactTime;
  private String userInfo;
  private String tradeReportId;
  private byte tradeReportType;
  private byte tradeReportTransType;
  private String tradeHandlingInstr;
  private String tradeReportRefId;
  private long lastPx;
  private long lastQty;
  private short trdType;
  private short trdSubType;
  private int confirmId;
  private String side;
  private String pbuid;
  private String accountId;
  private String branchId;
  private String counterPartyPbuid;
  private String counterPartyAccountId;
  private String counterPartyBranchId;
  private BinaryCodec applExtend;

  public String getApplId() {
    return this.applId;
  }

  public void setApplId(String applId) {
    this.applId = applId;
  }

  public String getSubmittingPbuid() {
    return this.submittingPbuid;
  }

  public void setSubmittingPbuid(String submittingPbuid) {
    this.submittingPbuid = submittingPbuid;
  }

  public String getSecurityId() {
    return this.securityId;
  }

  public void setSecurityId(String securityId) {
    this.securityId = securityId;
  }

  public String getSecurityIdsource() {
    return this.securityIdsource;
  }

  public void setSecurityIdsource(String securityIdsource) {
    this.securityIdsource = securityIdsource;
  }

  public short getOwnerType() {
    return this.ownerType;
  }

  public void setOwnerType(short ownerType) {
    this.ownerType = ownerType;
  }

  public String getClearingFirm() {
    return this.clearingFirm;
  }

  public void setClearingFirm(String clearingFirm) {
    this.clearingFirm = clearingFirm;
  }

  public long getTransactTime() {
    return this.transactTime;
  }

  public void setTransactTime(long transactTime) {
    this.transactTime = transactTime;
  }

  public String getUserInfo() {
    return this.userInfo;
  }

  public void setUserInfo(String userInfo) {
    this.userInfo = userInfo;
  }

  public String getTradeReportId() {
    return this.tradeReportId;
  }

  public void setTradeReportId(String tradeReportId) {
    this.tradeReportId = tradeReportId;
  }

  public byte getTradeReportType() {
    return this.tradeReportType;
  }

  public void setTradeReportType(byte tradeReportType) {
    this.tradeReportType = tradeReportType;
  }

  public byte getTradeReportTransType() {
    return this.tradeReportTransType;
  }

  public void setTradeReportTransType(byte tradeReportTransType) {
    this.tradeReportTransType = tradeReportTransType;
  }

  public String getTradeHandlingInstr() {
    return this.tradeHandlingInstr;
  }

  public void setTradeHandlingInstr(String tradeHandlingInstr) {
    this.tradeHandlingInstr = tradeHandlingInstr;
  }

  public String getTradeReportRefId() {
    return this.tradeReportRefId;
  }

  public void setTradeReportRefId(String tradeReportRefId) {
    this.tradeReportRefId = tradeReportRefId;
  }

  public long getLastPx() {
    return this.lastPx;
  }

  public void setLastPx(long lastPx) {
    this.lastPx = lastPx;
  }

  public long getLastQty() {
    return this.lastQty;
  }

  public void setLastQty(long lastQty) {
    this.lastQty = lastQty;
  }

  public short getTrdType() {
    return this.trdType;
  }

  public void setTrdType(short trdType) {
    this.trdType = trdType;
  }

  public short getTrdSubType() {
    return this.trdSubType;
  }

  public void setTrdSubType(short trdSubType) {
    this.trdSubType = trdSubType;
  }

  public int getConfirmId() {
    return this.confirmId;
  }

  public void setConfirmId(int confirmId) {
    this.confirmId = confirmId;
  }

  public String getSide() {
    return this.side;
  }

  public void setSide(String side) {
    this.side = side;
  }

  public String getPbuid() {
    return this.pbuid;
  }

  public void setPbuid(String pbuid) {
    this.pbuid = pbuid;
  }

  public String getAccountId() {
    return this.accountId;
  }

  public void setAccountId(String accountId) {
    this.accountId = accountId;
  }

  public String getBranchId() {
    return this.branchId;
  }

  public void setBranchId(String branchId) {
    this.branchId = branchId;
  }

  public String getCounterPartyPbuid() {
    return this.counterPartyPbuid;
  }

  public void setCounterPartyPbuid(String counterPartyPbuid) {
    this.counterPartyPbuid = counterPartyPbuid;
  }

  public String getCounterPartyAccountId() {
    return this.counterPartyAccountId;
  }

  public void setCounterPartyAccountId(String counterPartyAccountId) {
    this.counterPartyAccountId = counterPartyAccountId;
  }

  public String getCounterPartyBranchId() {
    return this.counterPartyBranchId;
  }

  public void setCounterPartyBranchId(String counterPartyBranchId) {
    this.counterPartyBranchId = counterPartyBranchId;
  }

  public BinaryCodec getApplExtend() {
    return this.applExtend;
  }

  public void setApplExtend(BinaryCodec applExtend) {
    this.applExtend = applExtend;
  }

  @Override
  public void encode(ByteBuf byteBuf) {
    writeFixedString(byteBuf, this.applId, 3);
    writeFixedString(byteBuf, this.submittingPbuid, 6);
    writeFixedString(byteBuf, this.securityId, 8);
    writeFixedString(byteBuf, this.securityIdsource, 4);
    byteBuf.writeShortLE(this.ownerType);
    writeFixedString(byteBuf, this.clearingFirm, 2);
    byteBuf.writeLongLE(this.transactTime);
    writeFixedString(byteBuf, this.userInfo, 32);
    writeFixedString(byteBuf, this.tradeReportId, 10);
    byteBuf.writeByte(this.tradeReportType);
    byteBuf.writeByte(this.tradeReportTransType);
    writeFixedString(byteBuf, this.tradeHandlingInstr, 1);
    writeFixedString(byteBuf, this.tradeReportRefId, 10);
    byteBuf.writeLongLE(this.lastPx);
    byteBuf.writeLongLE(this.lastQty);
    byteBuf.writeShortLE(this.trdType);
    byteBuf.writeShortLE(this.trdSubType);
    byteBuf.writeIntLE(this.confirmId);
    writeFixedString(byteBuf, this.side, 1);
    writeFixedString(byteBuf, this.pbuid, 6);
    writeFixedString(byteBuf, this.accountId, 10);
    writeFixedString(byteBuf, this.branchId, 2);
    writeFixedString(byteBuf, this.counterPartyPbuid, 6);
    writeFixedString(byteBuf, this.counterPartyAccountId, 10);
    writeFixedString(byteBuf, this.counterPartyBranchId, 2);
    if (null != this.applExtend) {
      this.applExtend.encode(byteBuf);
    }
  }

  @Override
  public void decode(ByteBuf byteBuf) {
    this.applId = readFixedString(byteBuf, 3);
    this.submittingPbuid = readFixedString(byteBuf, 6);
    this.securityId = readFixedString(byteBuf, 8);
    this.securityIdsource = readFixedString(byteBuf, 4);
    this.ownerType = byteBuf.readShortLE();
    this.clearingFirm = readFixedString(byteBuf, 2);
    this.transactTime = byteBuf.readLongLE();
    this.userInfo = readFixedString(byteBuf, 32);
    this.tradeReportId = readFixedString(byteBuf, 10);
    this.tradeReportType = byteBuf.readByte();
    this.tradeReportTransType = byteBuf.readByte();
    this.tradeHandlingInstr = readFixedString(byteBuf, 1);
    this.tradeReportRefId = readFixedString(byteBuf, 10);
    this.lastPx = byteBuf.readLongLE();
    this.lastQty = byteBuf.readLongLE();
    this.trdType = byteBuf.readShortLE();
    this.trdSubType = byteBuf.readShortLE();
    this.confirmId = byteBuf.readIntLE();
    this.side = readFixedString(byteBuf, 1);
    this.pbuid = readFixedString(byteBuf, 6);
    this.accountId = readFixedString(byteBuf, 10);
    this.branchId = readFixedString(byteBuf, 2);
    this.counterPartyPbuid = readFixedString(byteBuf, 6);
    this.counterPartyAccountId = readFixedString(byteBuf, 10);
    this.counterPartyBranchId = readFixedString(byteBuf, 2);
    this.applExtend = ApplExtendMessageFactory.getInstance().create(this.applId);
    this.applExtend.decode(byteBuf);
  }

  @Override
  public int hashCode() {
    return Objects.hash(
        applId,
        submittingPbuid,
        securityId,
        securityIdsource,
        ownerType,
        clearingFirm,
        transactTime,
        userInfo,
        tradeReportId,
        tradeReportType,
        tradeReportTransType,
        tradeHandlingInstr,
        tradeReportRefId,
        lastPx,
        lastQty,
        trdType,
        trdSubType,
        confirmId,
        side,
        pbuid,
        accountId,
        branchId,
        counterPartyPbuid,
        counterPartyAccountId,
        counterPartyBranchId,
        applExtend);
  }

  @Override
  public boolean equals(Object obj) {
    if (this == obj) {
      return true;
    }
    if (null == obj || getClass() != obj.getClass()) {
      return false;
    }
    TradeCaptureReport orther_ = (TradeCaptureReport) obj;
    return Objects.equals(applId, orther_.applId)
        && Objects.equals(submittingPbuid, orther_.submittingPbuid)
        && Objects.equals(securityId, orther_.securityId)
        && Objects.equals(securityIdsource, orther_.securityIdsource)
        && Objects.equals(ownerType, orther_.ownerType)
        && Objects.equals(clearingFirm, orther_.clearingFirm)
        && Objects.equals(transactTime, orther_.transactTime)
        && Objects.equals(userInfo, orther_.userInfo)
        && Objects.equals(tradeReportId, orther_.tradeReportId)
        && Objects.equals(tradeReportType, orther_.tradeReportType)
        && Objects.equals(tradeReportTransType, orther_.tradeReportTransType)
        && Objects.equals(tradeHandlingInstr, orther_.tradeHandlingInstr)
        && Objects.equals(tradeReportRefId, orther_.tradeReportRefId)
        && Objects.equals(lastPx, orther_.lastPx)
        && Objects.equals(lastQty, orther_.lastQty)
        && Objects.equals(trdType, orther_.trdType)
        && Objects.equals(trdSubType, orther_.trdSubType)
        && Objects.equals(confirmId, orther_.confirmId)
        && Objects.equals(side, orther_.side)
        && Objects.equals(pbuid, orther_.pbuid)
        && Objects.equals(accountId, orther_.accountId)
        && Objects.equals(branchId, orther_.branchId)
        && Objects.equals(counterPartyPbuid, orther_.counterPartyPbuid)
        && Objects.equals(counterPartyAccountId, orther_.counterPartyAccountId)
        && Objects.equals(counterPartyBranchId, orther_.counterPartyBranchId)
        && Objects.equals(applExtend, orther_.applExtend);
  }

  @Override
  public String toString() {
    return ""TradeCaptureReport [""
        + ""applId=""
        + this.applId
        + "", submittingPbuid=""
        + this.submittingPbuid
        + "", securityId=""
        + this.securityId
        + "", securityIdsource=""
        + this.securityIdsource
        + "", ownerType=""
        + this.ownerType
        + "", clearingFirm=""
        + this.clearingFirm
        + "", transactTime=""
        + this.transactTime
        + "", userInfo=""
        + this.userInfo
        + "", tradeReportId=""
        + this.tradeReportId
        + "", tradeReportType=""
        + this.tradeReportType
        + "", tradeReportTransType=""
        + this.tradeReportTransType
        + "", tradeHandlingInstr=""
        + this.tradeHandlingInstr
        + "", tradeReportRefId=""
        + this.tradeReportRefId
        + "", lastPx=""
        + this.lastPx
        + "", lastQty=""
        + this.lastQty
        + "", trdType=""
        + this.trdType
        + "", trdSubType=""
        + this.trdSubType
        + "", confirmId=""
        + this.confirmId
        + "", side=""
        + this.side
        + "", pbuid=""
        + this.pbuid
        + "", accountId=""
        + this.accountId
        + "", branchId=""
        + this.branchId
        + "", counterPartyPbuid=""
        + this.counterPartyPbuid
        + "", counterPartyAccountId=""
        + this.counterPartyAccountId
        + "", counterPartyBranchId=""
        + this.counterPartyBranchId
        + "", applExtend=""
        + this.applExtend
        + ""]"";
  }

  public static enum ApplExtendMessageFactory {
    INSTANCE;
    private final Map<String, Supplier<BinaryCodec>> applExtendMap = new HashMap<>();

    static {
      getInstance().register(""031"", TradeCaptureReportExtend031::new);
      getInstance().register(""051"", TradeCaptureReportExtend051::new);
      getInstance().register(""060"", TradeCaptureReportExtend060::new);
      getInstance().register(""061"", TradeCaptureReportExtend061::new);
      getInstance().register(""062"", TradeCaptureReportExtend062::new);
    }

    public BinaryCodec create(String applId) {
      Supplier<BinaryCodec> supplier = applExtendMap.get(applId);
      if (null == supplier) {
        throw new IllegalArgumentException(""Unsupported ApplID:"" + applId);
      }
      return supplier.get();
    }

    public void register(String applId, Supplier<BinaryCodec> supplier) {
      applExtendMap.put(applId, supplier);
    }

    public boolean remove(String applId) {
      return null != applExtendMap.remove(applId);
    }

    public static ApplExtendMessageFactory getInstance() {
      return INSTANCE;
    }
  }
}
".

(* bjse-bin/src/main/java/com/finproto/bjse/trade/messages/TradeCaptureReportAck.java *)
Definition text_bjse_TradeCaptureReportAck : text :=
"// Code generated by fin-protoc. DO NOT EDIT.
package com.finproto.bjse.trade.messages;

import com.finproto.codec.BinaryCodec;
import io.netty.buffer.ByteBuf;
import java.util.HashMap;
import java.util.Map;
import java.util.Objects;
import java.util.function.Supplier;

public class TradeCaptureReportAck implements BinaryCodec {
  private int partitionNo;
  private long reportIndex;
  private String applId;
  private String reportingPbuid;
  private String submittingPbuid;
  private String securityId;
  private String securityIdsource;
  private short ownerType;
  private String clearingFirm;
  private long transactTime;
  private String userInfo;
  private String tradeId;
  private String tradeReportId;
  private byte tradeReportType;
  private byte tradeReportTransType;
  private String tradeHandlingInstr;
  private String tradeReportRefId;
  private byte trdAckStatus;
  private byte trdRptStatus;
  private short tradeReportRejectReason;
  private long lastPx;
  private long lastQty;
  private short trdType;
  private short trdSubType;
  private int confirmId;
  private String execId;
  private String side;
  private String pbuid;
  private String accountId;
  private String branchId;
  private String counterPartyPbuid;
  private String counterPartyAccountId;
  private String counterPartyBranchId;
  private BinaryCodec applExtend;

  public int getPartitionNo() {
    return this.partitionNo;
  }

  public void setPartitionNo(int partitionNo) {
    this.partitionNo = partitionNo;
  }

  public long getReportIndex() {
    return this.reportIndex;
  }

  public void setReportIndex(long reportIndex) {
    this.reportIndex = reportIndex;
  }

  public String getApplId() {
    return this.applId;
  }

  public void setApplId(String applId) {
    this.applId = applId;
  }

  public String getReportingPbuid() {
    return this.reportingPbuid;
  }

  public void setReportingPbuid(String reportingPbuid) {
    this.reportingPbuid = reportingPbuid;
  }

  public String getSubmittingPbuid() {
    return this.submittingPbuid;
  }

  public void setSubmittingPbuid(String submittingPbuid) {
    this.submittingPbuid = submittingPbuid;
  }

  public String getSecurityId() {
    return this.securityId;
  }

  public void setSecurityId(String securityId) {
    this.securityId = securityId;
  }

  public String getSecurityIdsource() {
    return this.securityIdsource;
  }

  public void setSecurityIdsource(String securityIdsource) {
    this.securityIdsource = securityIdsource;
  }

  public short getOwnerType() {
    return this.ownerType;
  }

  public void setOwnerType(short ownerType) {
    this.ownerType = ownerType;
  }

  public String getClearingFirm() {
    return this.clearingFirm;
  }

  public void setClearingFirm(String clearingFirm) {
    this.clearingFirm = clearingFirm;
  }

  public long getTransactTime() {
    return this.transactTime;
  }

  public void setTransactTime(long transactTime) {
    this.transactTime = transactTime;
  }

  public String getUserInfo() {
    return this.userInfo;
  }

  public void setUserInfo(String userInfo) {
    this.userInfo = userInfo;
  }

  public String getTradeId() {
    return this.tradeId;
  }

  public void setTradeId(String tradeId) {
    this.tradeId = tradeId;
  }

  public String getTradeReportId() {
    return this.tradeReportId;
  }

  public void setTradeReportId(String tradeReportId) {
    this.tradeReportId = tradeReportId;
  }

  public byte getTradeReportType() {
    return this.tradeReportType;
  }

  public void setTradeReportType(byte tradeReportType) {
    this.tradeReportType = tradeReportType;
  }

  public byte getTradeReportTransType() {
    return this.tradeReportTransType;
  }

  public void setTradeReportTransType(byte tradeReportTransType) {
    this.tradeReportTransType = tradeReportTransType;
  }

  public String getTradeHandlingInstr() {
    return this.tradeHandlingInstr;
  }

  public void setTradeHandlingInstr(String tradeHandlingInstr) {
    this.tradeHandlingInstr = tradeHandlingInstr;
  }

  public String getTradeReportRefId() {
    return this.tradeReportRefId;
  }

  public void setTradeReportRefId(String tradeReportRefId) {
    this.tradeReportRefId = tradeReportRefId;
  }

  public byte getTrdAckStatus() {
    return this.trdAckStatus;
  }

  public void setTrdAckStatus(byte trdAckStatus) {
    this.trdAckStatus = trdAckStatus;
  }

  public byte getTrdRptStatus() {
    return this.trdRptStatus;
  }

  public void setTrdRptStatus(byte trdRptStatus) {
    this.trdRptStatus = trdRptStatus;
  }

  public short getTradeReportRejectReason() {
    return this.tradeReportRejectReason;
  }

  public void setTradeReportRejectReason(short tradeReportRejectReason) {
    this.tradeReportRejectReason = tradeReportRejectReason;
  }

  public long getLastPx() {
    return this.lastPx;
  }

  public void setLastPx(long lastPx) {
    this.lastPx = lastPx;
  }

  public long getLastQty() {
    return this.lastQty;
  }

  public void setLastQty(long lastQty) {
    this.lastQty = lastQty;
  }

  public short getTrdType() {
    return this.trdType;
  }

  public void setTrdType(short trdType) {
    this.trdType = trdType;
  }

  public short getTrdSubType() {
    return this.trdSubType;
  }

  public void setTrdSubType(short trdSubType) {
    this.trdSubType = trdSubType;
  }

  public int getConfirmId() {
    return this.confirmId;
  }

  public void setConfirmId(int confirmId) {
    this.confirmId = confirmId;
  }

  public String getExecId() {
    return this.execId;
  }

  public void setExecId(String execId) {
    this.execId = execId;
  }

  public String getSide() {
    return this.side;
  }

  public void setSide(String side) {
    this.side = side;
  }

  public String getPbuid() {
    return this.pbuid;
  }

  public void setPbuid(String pbuid) {
    this.pbuid = pbuid;
  }

  public String getAccountId() {
    return this.accountId;
  }

  public void setAccountId(String accountId) {
    this.accountId = accountId;
  }

  public String getBranchId() {
    return this.branchId;
  }

  public void setBranchId(String branchId) {
    this.branchId = branchId;
  }

  public String getCounterPartyPbuid() {
    return this.counterPartyPbuid;
  }

  public void setCounterPartyPbuid(String counterPartyPbuid) {
    this.counterPartyPbuid = counterPartyPbuid;
  }

  public String getCounterPartyAccountId() {
    return this.counterPartyAccountId;
  }

  public void setCounterPartyAccountId(String counterPartyAccountId) {
    this.counterPartyAccountId = counterPartyAccountId;
  }

  public String getCounterPartyBranchId() {
    return this.counterPartyBranchId;
  }

  public void setCounterPartyBranchId(String counterPartyBranchId) {
    this.counterPartyBranchId = counterPartyBranchId;
  }

  public BinaryCodec getApplExtend() {
    return this.applExtend;
  }

  public void setApplExtend(BinaryCodec applExtend) {
    this.applExtend = applExtend;
  }

  @Override
  public void encode(ByteBuf byteBuf) {
    byteBuf.writeIntLE(this.partitionNo);
    byteBuf.writeLongLE(this.reportIndex);
    writeFixedString(byteBuf, this.applId, 3);
    writeFixedString(byteBuf, this.reportingPbuid, 6);
    writeFixedString(byteBuf, this.submittingPbuid, 6);
    writeFixedString(byteBuf, this.securityId, 8);
    writeFixedString(byteBuf, this.securityIdsource, 4);
    byteBuf.writeShortLE(this.ownerType);
    writeFixedString(byteBuf, this.clearingFirm, 2);
    byteBuf.writeLongLE(this.transactTime);
    writeFixedString(byteBuf, this.userInfo, 32);
    writeFixedString(byteBuf, this.tradeId, 16);
    writeFixedString(byteBuf, this.tradeReportId, 10);
    byteBuf.writeByte(this.tradeReportType);
    byteBuf.writeByte(this.tradeReportTransType);
    writeFixedString(byteBuf, this.tradeHandlingInstr, 1);
    writeFixedString(byteBuf, this.tradeReportRefId, 10);
    byteBuf.writeByte(this.trdAckStatus);
    byteBuf.writeByte(this.trdRptStatus);
    byteBuf.writeShortLE(this.tradeReportRejectReason);
    byteBuf.writeLongLE(this.lastPx);
    byteBuf.writeLongLE(this.lastQty);
    byteBuf.writeShortLE(this.trdType);
    byteBuf.writeShortLE(this.trdSubType);
    byteBuf.writeIntLE(this.confirmId);
    writeFixedString(byteBuf, this.execId, 16);
    writeFixedString(byteBuf, this.side, 1);
    writeFixedString(byteBuf, this.pbuid, 6);
    writeFixedString(byteBuf, this.accountId, 10);
    writeFixedString(byteBuf, this.branchId, 2);
    writeFixedString(byteBuf, this.counterPartyPbuid, 6);
    writeFixedString(byteBuf, this.counterPartyAccountId, 10);
    writeFixedString(byteBuf, this.counterPartyBranchId, 2);
    if (null != this.applExtend) {
      this.applExtend.encode(byteBuf);
    }
  }

  @Override
  public void decode(ByteBuf byteBuf) {
    this.partitionNo = byteBuf.readIntLE();
    this.reportIndex = byteBuf.readLongLE();
    this.applId = readFixedString(byteBuf, 3);
    this.reportingPbuid = readFixedString(byteBuf, 6);
    this.submittingPbuid = readFixedString(byteBuf, 6);
    this.securityId = readFixedString(byteBuf, 8);
    this.securityIdsource = readFixedString(byteBuf, 4);
    this.ownerType = byteBuf.readShortLE();
    this.clearingFirm = readFixedString(byteBuf, 2);
    this.transactTime = byteBuf.readLongLE();
    this.userInfo = readFixedString(byteBuf, 32);
    this.tradeId = readFixedString(byteBuf, 16);
    this.tradeReportId = readFixedString(byteBuf, 10);
    this.tradeReportType = byteBuf.readByte();
    this.tradeReportTransType = byteBuf.readByte();
    this.tradeHandlingInstr = readFixedString(byteBuf, 1);
    this.tradeReportRefId = readFixedString(byteBuf, 10);
    this.trdAckStatus = byteBuf.readByte();
    this.trdRptStatus = byteBuf.readByte();
    this.tradeReportRejectReason = byteBuf.readShortLE();
    this.lastPx = byteBuf.readLongLE();
    this.lastQty = byteBuf.readLongLE();
    this.trdType = byteBuf.readShortLE();
    this.trdSubType = byteBuf.readShortLE();
    this.confirmId = byteBuf.readIntLE();
    this.execId = readFixedString(byteBuf, 16);
    this.side = readFixedString(byteBuf, 1);
    this.pbuid = readFixedString(byteBuf, 6);
    this.accountId = readFixedString(byteBuf, 10);
    this.branchId = readFixedString(byteBuf, 2);
    this.counterPartyPbuid = readFixedString(byteBuf, 6);
    this.counterPartyAccountId = readFixedString(byteBuf, 10);
    this.counterPartyBranchId = readFixedString(byteBuf, 2);
    this.applExtend = ApplExtendMessageFactory.getInstance().create(this.applId);
    this.applExtend.decode(byteBuf);
  }

  @Override
  public int hashCode() {
    return Objects.hash(
        partitionNo,
        reportIndex,
        applId,
        reportingPbuid,
        submittingPbuid,
        securityId,
        securityIdsource,
        ownerType,
        clearingFirm,
        transactTime,
        userInfo,
        tradeId,
        tradeReportId,
        tradeReportType,
        tradeReportTransType,
        tradeHandlingInstr,
        tradeReportRefId,
        trdAckStatus,
        trdRptStatus,
        tradeReportRejectReason,
        lastPx,
        lastQty,
        trdType,
        trdSubType,
        confirmId,
        execId,
        side,
        pbuid,
        accountId,
        branchId,
        counterPartyPbuid,
        counterPartyAccountId,
        counterPartyBranchId,
        applExtend);
  }

  @Override
  public boolean equals(Object obj) {
    if (this == obj) {
      return true;
    }
    if (null == obj || getClass() != obj.getClass()) {
      return false;
    }
    TradeCaptureReportAck orther_ = (TradeCaptureReportAck) obj;
    return Objects.equals(partitionNo, orther_.partitionNo)
        && Objects.equals(reportIndex, orther_.reportIndex)
        && Objects.equals(applId, orther_.applId)
        && Objects.equals(reportingPbuid, orther_.reportingPbuid)
        && Objects.equals(submittingPbuid, orther_.submittingPbuid)
        && Objects.equals(securityId, orther_.securityId)
        && Objects.equals(securityIdsource, orther_.securityIdsource)
        && Objects.equals(ownerType, orther_.ownerType)
        && Objects.equals(clearingFirm, orther_.clearingFirm)
        && Objects.equals(transactTime, orther_.transactTime)
        && Objects.equals(userInfo, orther_.userInfo)
        && Objects.equals(tradeId, orther_.tradeId)
        && Objects.equals(tradeReportId, orther_.tradeReportId)
        && Objects.equals(tradeReportType, orther_.tradeReportType)
        && Objects.equals(tradeReportTransType, orther_.tradeReportTransType)
        && Objects.equals(tradeHandlingInstr, orther_.tradeHandlingInstr)
        && Objects.equals(tradeReportRefId, orther_.tradeReportRefId)
        && Objects.equals(trdAckStatus, orther_.trdAckStatus)
        && Objects.equals(trdRptStatus, orther_.trdRptStatus)
        && Objects.equals(tradeReportRejectReason, orther_.tradeReportRejectReason)
        && Objects.equals(lastPx, orther_.lastPx)
        && Objects.equals(lastQty, orther_.lastQty)
        && Objects.equals(trdType, orther_.trdType)
        && Objects.equals(trdSubType, orther_.trdSubType)
        && Objects.equals(confirmId, orther_.confirmId)
        && Objects.equals(execId, orther_.execId)
        && Objects.equals(side, orther_.side)
        && Objects.equals(pbuid, orther_.pbuid)
        && Objects.equals(accountId, orther_.accountId)
        && Objects.equals(branchId, orther_.branchId)
        && Objects.equals(counterPartyPbuid, orther_.counterPartyPbuid)
        && Objects.equals(counterPartyAccountId, orther_.counterPartyAccountId)
        && Objects.equals(counterPartyBranchId, orther_.counterPartyBranchId)
        && Objects.equals(applExtend, orther_.applExtend);
  }

  @Override
  public String toString() {
    return ""TradeCaptureReportAck [""
        + ""partitionNo=""
        + this.partitionNo
        + "", reportIndex=""
        + this.reportIndex
        + "", applId=""
        + this.applId
        + "", reportingPbuid=""
        + this.reportingPbuid
        + "", submittingPbuid=""
        + this.submittingPbuid
        + "", securityId=""
        + this.securityId
        + "", securityIdsource=""
        + this.securityIdsource
        + "", ownerType=""
        + this.ownerType
        + "", clearingFirm=""
        + this.clearingFirm
        + "", transactTime=""
        + this.transactTime
        + "", userInfo=""
        + this.userInfo
        + "", tradeId=""
        + this.tradeId
        + "", tradeReportId=""
        + this.tradeReportId
        + "", tradeReportType=""
        + this.tradeReportType
        + "", tradeReportTransType=""
        + this.tradeReportTransType
        + "", tradeHandlingInstr=""
        + this.tradeHandlingInstr
        + "", tradeReportRefId=""
        + this.tradeReportRefId
        + "", trdAckStatus=""
        + this.trdAckStatus
        + "", trdRptStatus=""
        + this.trdRptStatus
        + "", tradeReportRejectReason=""
        + this.tradeReportRejectReason
        + "", lastPx=""
        + this.lastPx
        + "", lastQty=""
        + this.lastQty
        + "", trdType=""
        + this.trdType
        + "", trdSubType=""
        + this.trdSubType
        + "", confirmId=""
        + this.confirmId
        + "", execId=""
        + this.execId
        + "", side=""
        + this.side
        + "", pbuid=""
        + this.pbuid
        + "", accountId=""
        + this.accountId
        + "", branchId=""
        + this.branchId
        + "", counterPartyPbuid=""
        + this.counterPartyPbuid
        + "", counterPartyAccountId=""
        + this.counterPartyAccountId
        + "", counterPartyBranchId=""
        + this.counterPartyBranchId
        + "", applExtend=""
        + this.applExtend
        + ""]"";
  }

  public static enum ApplExtendMessageFactory {
    INSTANCE;
    private final Map<String, Supplier<BinaryCodec>> applExtendMap = new HashMap<>();

    static {
      getInstance().register(""031"", TradeCaptureReportAckExtend031::new);
      getInstance().register(""051"", TradeCaptureReportAckExtend051::new);
      getInstance().register(""060"", TradeCaptureReportAckExtend060::new);
      getInstance().register(""061"", TradeCaptureReportAckExtend061::new);
      getInstance().register(""062"", TradeCaptureReportAckExtend062::new);
    }

    public BinaryCodec create(String applId) {
      Supplier<BinaryCodec> supplier = applExtendMap.get(applId);
      if (null == supplier) {
        throw new IllegalArgumentException(""Unsupported ApplID:"" + applId);
      }
      return supplier.get();
    }

    public void register(String applId, Supplier<BinaryCodec> supplier) {
      applExtendMap.put(applId, supplier);
    }

    public boolean remove(String applId) {
      return null != applExtendMap.remove(applId);
    }

    public static ApplExtendMessageFactory getInstance() {
      return INSTANCE;
    }
  }
}
".

(* bjse-bin/src/main/java/com/finproto/bjse/trade/messages/TradeCaptureReportAckExtend031.java *)
Definition text_bjse_TradeCaptureReportAckExtend031 : text :=
"// Code generated by fin-protoc. DO NOT EDIT.
package com.finproto.bjse.trade.messages;

import com.finproto.codec.BinaryCodec;
import io.netty.buffer.ByteBuf;
import java.util.Objects;

public class TradeCaptureReportAckExtend031 implements BinaryCodec {
  private String memberId;
  private String traderCode;
  private String counterPartyMemberId;
  private String counterPartyTraderCode;
  private String settlType;
  private String settlPeriod;
  private String cashMargin;
  private String memo;

  public String getMemberId() {
    return this.memberId;
  }

  public void setMemberId(String memberId) {
    this.memberId = memberId;
  }

  public String getTraderCode() {
    return this.traderCode;
  }

  public void setTraderCode(String traderCode) {
    this.traderCode = traderCode;
  }

  public String getCounterPartyMemberId() {
    return this.counterPartyMemberId;
  }

  public void setCounterPartyMemberId(String counterPartyMemberId) {
    this.counterPartyMemberId = counterPartyMemberId;
  }

  public String getCounterPartyTraderCode() {
    return this.counterPartyTraderCode;
  }

  public void setCounterPartyTraderCode(String counterPartyTraderCode) {
    this.counterPartyTraderCode = counterPartyTraderCode;
  }

  public String getSettlType() {
    return this.settlType;
  }

  public void setSettlType(String settlType) {
    this.settlType = settlType;
  }

  public String getSettlPeriod() {
    return this.settlPeriod;
  }

  public void setSettlPeriod(String settlPeriod) {
    this.settlPeriod = settlPeriod;
  }

  public String getCashMargin() {
    return this.cashMargin;
  }

  public void setCashMargin(String cashMargin) {
    this.cashMargin = cashMargin;
  }

  public String getMemo() {
    return this.memo;
  }

  public void setMemo(String memo) {
    this.memo = memo;
  }

  @Override
  public void encode(ByteBuf byteBuf) {
    writeFixedString(byteBuf, this.memberId, 6);
    writeFixedString(byteBuf, this.traderCode, 5);
    writeFixedString(byteBuf, this.counterPartyMemberId, 6);
    writeFixedString(byteBuf, this.counterPartyTraderCode, 5);
    writeFixedString(byteBuf, this.settlType, 1);
    writeFixedString(byteBuf, this.settlPeriod, 1);
    writeFixedString(byteBuf, this.cashMargin, 1);
    writeFixedString(byteBuf, this.memo, 120);
  }

  @Override
  public void decode(ByteBuf byteBuf) {
    this.memberId = readFixedString(byteBuf, 6);
    this.traderCode = readFixedString(byteBuf, 5);
    this.counterPartyMemberId = readFixedString(byteBuf, 6);
    this.counterPartyTraderCode = readFixedString(byteBuf, 5);
    this.settlType = readFixedString(byteBuf, 1);
    this.settlPeriod = readFixedString(byteBuf, 1);
    this.cashMargin = readFixedString(byteBuf, 1);
    this.memo = readFixedString(byteBuf, 120);
  }

  @Override
  public int hashCode() {
    return Objects.hash(
        memberId,
        traderCode,
        counterPartyMemberId,
        counterPartyTraderCode,
        settlType,
        settlPeriod,
        cashMargin,
        memo);
  }

  @Override
  public boolean equals(Object obj) {
    if (this == obj) {
      return true;
    }
    if (null == obj || getClass() != obj.getClass()) {
      return false;
    }
    TradeCaptureReportAckExtend031 orther_ = (TradeCaptureReportAckExtend031) obj;
    return Objects.equals(memberId, orther_.memberId)
        && Objects.equals(traderCode, orther_.traderCode)
        && Objects.equals(counterPartyMemberId, orther_.counterPartyMemberId)
        && Objects.equals(counterPartyTraderCode, orther_.counterPartyTraderCode)
        && Objects.equals(settlType, orther_.settlType)
        && Objects.equals(settlPeriod, orther_.settlPeriod)
        && Objects.equals(cashMargin, orther_.cashMargin)
        && Objects.equals(memo, orther_.memo);
  }

  @Override
  public String toString() {
    return ""TradeCaptureReportAckExtend031 [""
        + ""memberId=""
        + this.memberId
        + "", traderCode=""
        + this.traderCode
        + "", counterPartyMemberId=""
        + this.counterPartyMemberId
        + "", counterPartyTraderCode=""
        + this.counterPartyTraderCode
        + "", settlType=""
        + this.settlType
        + "", settlPeriod=""
        + this.settlPeriod
        + "", cashMargin=""
        + this.cashMargin
        + "", memo=""
        + this.memo
        + ""]"";
  }
}
".

(* bjse-bin/src/main/java/com/finproto/bjse/trade/messages/TradeCaptureReportAckExtend051.java *)
Definition text_bjse_TradeCaptureReportAckExtend051 : text :=
"// Code generated by fin-protoc. DO NOT EDIT.
package com.finproto.bjse.trade.messages;

import com.finproto.codec.BinaryCodec;
import io.netty.buffer.ByteBuf;
import java.util.Objects;

public class TradeCaptureReportAckExtend051 implements BinaryCodec {
  private short expirationDays;
  private byte expirationType;
  private String shareProperty;

  public short getExpirationDays() {
    return this.expirationDays;
  }

  public void setExpirationDays(short expirationDays) {
    this.expirationDays = expirationDays;
  }

  public byte getExpirationType() {
    return this.expirationType;
  }

  public void setExpirationType(byte expirationType) {
    this.expirationType = expirationType;
  }

  public String getShareProperty() {
    return this.shareProperty;
  }

  public void setShareProperty(String shareProperty) {
    this.shareProperty = shareProperty;
  }

  @Override
  public void encode(ByteBuf byteBuf) {
    byteBuf.writeShortLE(this.expirationDays);
    byteBuf.writeByte(this.expirationType);
    writeFixedString(byteBuf, this.shareProperty, 2);
  }

  @Override
  public void decode(ByteBuf byteBuf) {
    this.expirationDays = byteBuf.readShortLE();
    this.expirationType = byteBuf.readByte();
    this.shareProperty = readFixedString(byteBuf, 2);
  }

  @Override
  public int hashCode() {
    return Objects.hash(expirationDays, expirationType, shareProperty);
  }

  @Override
  public boolean equals(Object obj) {
    if (this == obj) {
      return true;
    }
    if (null == obj || getClass() != obj.getClass()) {
      return false;
    }
    TradeCaptureReportAckExtend051 orther_ = (TradeCaptureReportAckExtend051) obj;
    return Objects.equals(expirationDays, orther_.expirationDays)
        && Objects.equals(expirationType, orther_.expirationType)
        && Objects.equals(shareProperty, orther_.shareProperty);
  }

  @Override
  public String toString() {
    return ""TradeCaptureReportAckExtend051 [""
        + ""expirationDays=""
        + this.expirationDays
        + "", expirationType=""
        + this.expirationType
        + "", shareProperty=""
        + this.shareProperty
        + ""]"";
  }
}
".

(* bjse-bin/src/main/java/com/finproto/bjse/trade/messages/TradeCaptureReportAckExtend060.java *)
Definition text_bjse_TradeCaptureReportAckExtend060 : text :=
"// Code generated by fin-protoc. DO NOT EDIT.
package com.finproto.bjse.trade.messages;

import com.finproto.codec.BinaryCodec;
import io.netty.buffer.ByteBuf;

public class TradeCaptureReportAckExtend060 implements BinaryCodec {

  @Override
  public void encode(ByteBuf byteBuf) {}

  @Override
  public void decode(ByteBuf byteBuf) {}

  @Override
  public int hashCode() {
    return this.hashCode();
  }

  @Override
  public boolean equals(Object obj) {
    if (this == obj) {
      return true;
    }
    if (null == obj || getClass() != obj.getClass()) {
      return false;
    }
    return true;
  }

  @Override
  public String toString() {
    return ""TradeCaptureReportAckExtend060 []"";
  }
}
".

(* bjse-bin/src/main/java/com/finproto/bjse/trade/messages/TradeCaptureReportAckExtend061.java *)
Definition text_bjse_TradeCaptureReportAckExtend061 : text :=
"// Code generated by fin-protoc. DO NOT EDIT.
package com.finproto.bjse.trade.messages;

import com.finproto.codec.BinaryCodec;
import io.netty.buffer.ByteBuf;

public class TradeCaptureReportAckExtend061 implements BinaryCodec {

  @Override
  public void encode(ByteBuf byteBuf) {}

  @Override
  public void decode(ByteBuf byteBuf) {}

  @Override
  public int hashCode() {
    return this.hashCode();
  }

  @Override
  public boolean equals(Object obj) {
    if (this == obj) {
      return true;
    }
    if (null == obj || getClass() != obj.getClass()) {
      return false;
    }
    return true;
  }

  @Override
  public String toString() {
    return ""TradeCaptureReportAckExtend061 []"";
  }
}
".

(* bjse-bin/src/main/java/com/finproto/bjse/trade/messages/TradeCaptureReportAckExtend062.java *)
Definition text_bjse_TradeCaptureReportAckExtend062 : text :=
"// Code generated by fin-protoc. DO NOT EDIT.
package com.finproto.bjse.trade.messages;

import com.finproto.codec.BinaryCodec;
import io.netty.buffer.ByteBuf;
import java.util.Objects;

public class TradeCaptureReportAckExtend062 implements BinaryCodec {
  private String cashMargin;

  public String getCashMargin() {
    return this.cashMargin;
  }

  public void setCashMargin(String cashMargin) {
    this.cashMargin = cashMargin;
  }

  @Override
  public void encode(ByteBuf byteBuf) {
    writeFixedString(byteBuf, this.cashMargin, 1);
  }

  @Override
  public void decode(ByteBuf byteBuf) {
    this.cashMargin = readFixedString(byteBuf, 1);
  }

  @Override
  public int hashCode() {
    return Objects.hash(cashMargin);
  }

  @Override
  public boolean equals(Object obj) {
    if (this == obj) {
      return true;
    }
    if (null == obj || getClass() != obj.getClass()) {
      return false;
    }
    TradeCaptureReportAckExtend062 orther_ = (TradeCaptureReportAckExtend062) obj;
    return Objects.equals(cashMargin, orther_.cashMargin);
  }

  @Override
  public String toString() {
    return ""TradeCaptureReportAckExtend062 ["" + ""cashMargin="" + this.cashMargin + ""]"";
  }
}
".

(* bjse-bin/src/main/java/com/finproto/bjse/trade/messages/TradeCaptureReportExtend031.java *)
Definition text_bjse_TradeCaptureReportExtend031 : text :=
"// Code generated by fin-protoc. DO NOT EDIT.
package com.finproto.bjse.trade.messages;

import com.finproto.codec.BinaryCodec;
import io.netty.buffer.ByteBuf;
import java.util.Objects;

public class TradeCaptureReportExtend031 implements BinaryCodec {
  private String memberId;
  private String traderCode;
  private String counterPartyMemberId;
  private String counterPartyTraderCode;
  private String settlType;
  private String settlPeriod;
  private String cashMargin;
  private String memo;

  public String getMemberId() {
    return this.memberId;
  }

  public void setMemberId(String memberId) {
    this.memberId = memberId;
  }

  public String getTraderCode() {
    return this.traderCode;
  }

  public void setTraderCode(String traderCode) {
    this.traderCode = traderCode;
  }

  public String getCounterPartyMemberId() {
    return this.counterPartyMemberId;
  }

  public void setCounterPartyMemberId(String counterPartyMemberId) {
    this.counterPartyMemberId = counterPartyMemberId;
  }

  public String getCounterPartyTraderCode() {
    return this.counterPartyTraderCode;
  }

  public void setCounterPartyTraderCode(String counterPartyTraderCode) {
    this.counterPartyTraderCode = counterPartyTraderCode;
  }

  public String getSettlType() {
    return this.settlType;
  }

  public void setSettlType(String settlType) {
    this.settlType = settlType;
  }

  public String getSettlPeriod() {
    return this.settlPeriod;
  }

  public void setSettlPeriod(String settlPeriod) {
    this.settlPeriod = settlPeriod;
  }

  public String getCashMargin() {
    return this.cashMargin;
  }

  public void setCashMargin(String cashMargin) {
    this.cashMargin = cashMargin;
  }

  public String getMemo() {
    return this.memo;
  }

  public void setMemo(String memo) {
    this.memo = memo;
  }

  @Override
  public void encode(ByteBuf byteBuf) {
    writeFixedString(byteBuf, this.memberId, 6);
    writeFixedString(byteBuf, this.traderCode, 5);
    writeFixedString(byteBuf, this.counterPartyMemberId, 6);
    writeFixedString(byteBuf, this.counterPartyTraderCode, 5);
    writeFixedString(byteBuf, this.settlType, 1);
    writeFixedString(byteBuf, this.settlPeriod, 1);
    writeFixedString(byteBuf, this.cashMargin, 1);
    writeFixedString(byteBuf, this.memo, 120);
  }

  @Override
  public void decode(ByteBuf byteBuf) {
    this.memberId = readFixedString(byteBuf, 6);
    this.traderCode = readFixedString(byteBuf, 5);
    this.counterPartyMemberId = readFixedString(byteBuf, 6);
    this.counterPartyTraderCode = readFixedString(byteBuf, 5);
    this.settlType = readFixedString(byteBuf, 1);
    this.settlPeriod = readFixedString(byteBuf, 1);
    this.cashMargin = readFixedString(byteBuf, 1);
    this.memo = readFixedString(byteBuf, 120);
  }

  @Override
  public int hashCode() {
    return Objects.hash(
        memberId,
        traderCode,
        counterPartyMemberId,
        counterPartyTraderCode,
        settlType,
        settlPeriod,
        cashMargin,
        memo);
  }

  @Override
  public boolean equals(Object obj) {
    if (this == obj) {
      return true;
    }
    if (null == obj || getClass() != obj.getClass()) {
      return false;
    }
    TradeCaptureReportExtend031 orther_ = (TradeCaptureReportExtend031) obj;
    return Objects.equals(memberId, orther_.memberId)
        && Objects.equals(traderCode, orther_.traderCode)
        && Objects.equals(counterPartyMemberId, orther_.counterPartyMemberId)
        && Objects.equals(counterPartyTraderCode, orther_.counterPartyTraderCode)
        && Objects.equals(settlType, orther_.settlType)
        && Objects.equals(settlPeriod, orther_.settlPeriod)
        && Objects.equals(cashMargin, orther_.cashMargin)
        && Objects.equals(memo, orther_.memo);
  }

  @Override
  public String toString() {
    return ""TradeCaptureReportExtend031 [""
        + ""memberId=""
        + this.memberId
        + "", traderCode=""
        + this.traderCode
        + "", counterPartyMemberId=""
        + this.counterPartyMemberId
        + "", counterPartyTraderCode=""
        + this.counterPartyTraderCode
        + "", settlType=""
        + this.settlType
        + "", settlPeriod=""
        + this.settlPeriod
        + "", cashMargin=""
        + this.cashMargin
        + "", memo=""
        + this.memo
        + ""]"";
  }
}
".

(* bjse-bin/src/main/java/com/finproto/bjse/trade/messages/TradeCaptureReportExtend051.java *)
Definition text_bjse_TradeCaptureReportExtend051 : text :=
"// Code generated by fin-protoc. DO NOT EDIT.
package com.finproto.bjse.trade.messages;

import com.finproto.codec.BinaryCodec;
import io.netty.buffer.ByteBuf;
import java.util.Objects;

public class TradeCaptureReportExtend051 implements BinaryCodec {
  private short expirationDays;
  private byte expirationType;
  private String shareProperty;

  public short getExpirationDays() {
    return this.expirationDays;
  }

  public void setExpirationDays(short expirationDays) {
    this.expirationDays = expirationDays;
  }

  public byte getExpirationType() {
    return this.expirationType;
  }

  public void setExpirationType(byte expirationType) {
    this.expirationType = expirationType;
  }

  public String getShareProperty() {
    return this.shareProperty;
  }

  public void setShareProperty(String shareProperty) {
    this.shareProperty = shareProperty;
  }

  @Override
  public void encode(ByteBuf byteBuf) {
    byteBuf.writeShortLE(this.expirationDays);
    byteBuf.writeByte(this.expirationType);
    writeFixedString(byteBuf, this.shareProperty, 2);
  }

  @Override
  public void decode(ByteBuf byteBuf) {
    this.expirationDays = byteBuf.readShortLE();
    this.expirationType = byteBuf.readByte();
    this.shareProperty = readFixedString(byteBuf, 2);
  }

  @Override
  public int hashCode() {
    return Objects.hash(expirationDays, expirationType, shareProperty);
  }

  @Override
  public boolean equals(Object obj) {
    if (this == obj) {
      return true;
    }
    if (null == obj || getClass() != obj.getClass()) {
      return false;
    }
    TradeCaptureReportExtend051 orther_ = (TradeCaptureReportExtend051) obj;
    return Objects.equals(expirationDays, orther_.expirationDays)
        && Objects.equals(expirationType, orther_.expirationType)
        && Objects.equals(shareProperty, orther_.shareProperty);
  }

  @Override
  public String toString() {
    return ""TradeCaptureReportExtend051 [""
        + ""expirationDays=""
        + this.expirationDays
        + "", expirationType=""
        + this.expirationType
        + "", shareProperty=""
        + this.shareProperty
        + ""]"";
  }
}
".

(* bjse-bin/src/main/java/com/finproto/bjse/trade/messages/TradeCaptureReportExtend060.java *)
Definition text_bjse_TradeCaptureReportExtend060 : text :=
"// Code generated by fin-protoc. DO NOT EDIT.
package com.finproto.bjse.trade.messages;

import com.finproto.codec.BinaryCodec;
import io.netty.buffer.ByteBuf;

public class TradeCaptureReportExtend060 implements BinaryCodec {

  @Override
  public void encode(ByteBuf byteBuf) {}

  @Override
  public void decode(ByteBuf byteBuf) {}

  @Override
  public int hashCode() {
    return this.hashCode();
  }

  @Override
  public boolean equals(Object obj) {
    if (this == obj) {
      return true;
    }
    if (null == obj || getClass() != obj.getClass()) {
      return false;
    }
    return true;
  }

  @Override
  public String toString() {
    return ""TradeCaptureReportExtend060 []"";
  }
}
".

(* bjse-bin/src/main/java/com/finproto/bjse/trade/messages/TradeCaptureReportExtend061.java *)
Definition text_bjse_TradeCaptureReportExtend061 : text :=
"// Code generated by fin-protoc. DO NOT EDIT.
package com.finproto.bjse.trade.messages;

import com.finproto.codec.BinaryCodec;
import io.netty.buffer.ByteBuf;

public class TradeCaptureReportExtend061 implements BinaryCodec {

  @Override
  public void encode(ByteBuf byteBuf) {}

  @Override
  public void decode(ByteBuf byteBuf) {}

  @Override
  public int hashCode() {
    return this.hashCode();
  }

  @Override
  public boolean equals(Object obj) {
    if (this == obj) {
      return true;
    }
    if (null == obj || getClass() != obj.getClass()) {
      return false;
    }
    return true;
  }

  @Override
  public String toString() {
    return ""TradeCaptureReportExtend061 []"";
  }
}
".

(* bjse-bin/src/main/java/com/finproto/bjse/trade/messages/TradeCaptureReportExtend062.java *)
Definition text_bjse_TradeCaptureReportExtend062 : text :=
"// Code generated by fin-protoc. DO NOT EDIT.
package com.finproto.bjse.trade.messages;

import com.finproto.codec.BinaryCodec;
import io.netty.buffer.ByteBuf;
import java.util.Objects;

public class TradeCaptureReportExtend062 implements BinaryCodec {
  private String cashMargin;

  public String getCashMargin() {
    return this.cashMargin;
  }

  public void setCashMargin(String cashMargin) {
    this.cashMargin = cashMargin;
  }

  @Override
  public void encode(ByteBuf byteBuf) {
    writeFixedString(byteBuf, this.cashMargin, 1);
  }

  @Override
  public void decode(ByteBuf byteBuf) {
    this.cashMargin = readFixedString(byteBuf, 1);
  }

  @Override
  public int hashCode() {
    return Objects.hash(cashMargin);
  }

  @Override
  public boolean equals(Object obj) {
    if (this == obj) {
      return true;
    }
    if (null == obj || getClass() != obj.getClass()) {
      return false;
    }
    TradeCaptureReportExtend062 orther_ = (TradeCaptureReportExtend062) obj;
    return Objects.equals(cashMargin, orther_.cashMargin);
  }

  @Override
  public String toString() {
    return ""TradeCaptureReportExtend062 ["" + ""cashMargin="" + this.cashMargin + ""]"";
  }
}
".

(* bjse-bin/src/main/java/com/finproto/bjse/trade/messages/TradingSessionStatus.java *)
Definition text_bjse_TradingSessionStatus : text :=
"// Code generated by fin-protoc. DO NOT EDIT.
package com.finproto.bjse.trade.messages;

import com.finproto.codec.BinaryCodec;
import io.netty.buffer.ByteBuf;
import java.util.Objects;

public class TradingSessionStatus implements BinaryCodec {
  private String marketId;
  private String marketSegmentId;
  private String tradingSessionId;
  private String tradingSessionSubId;
  private byte tradSesStatus;
  private long tradSesStartTime;

  public String getMarketId() {
    return this.marketId;
  }

  public void setMarketId(String marketId) {
    this.marketId = marketId;
  }

  public String getMarketSegmentId() {
    return this.marketSegmentId;
  }

  public void setMarketSegmentId(String marketSegmentId) {
    this.marketSegmentId = marketSegmentId;
  }

  public String getTradingSessionId() {
    return this.tradingSessionId;
  }

  public void setTradingSessionId(String tradingSessionId) {
    this.tradingSessionId = tradingSessionId;
  }

  public String getTradingSessionSubId() {
    return this.tradingSessionSubId;
  }

  public void setTradingSessionSubId(String tradingSessionSubId) {
    this.tradingSessionSubId = tradingSessionSubId;
  }

  public byte getTradSesStatus() {
    return this.tradSesStatus;
  }

  public void setTradSesStatus(byte tradSesStatus) {
    this.tradSesStatus = tradSesStatus;
  }

  public long getTradSesStartTime() {
    return this.tradSesStartTime;
  }

  public void setTradSesStartTime(long tradSesStartTime) {
    this.tradSesStartTime = tradSesStartTime;
  }

  @Override
  public void encode(ByteBuf byteBuf) {
    writeFixedString(byteBuf, this.marketId, 3);
    writeFixedString(byteBuf, this.marketSegmentId, 3);
    writeFixedString(byteBuf, this.tradingSessionId, 3);
    writeFixedString(byteBuf, this.tradingSessionSubId, 3);
    byteBuf.writeByte(this.tradSesStatus);
    byteBuf.writeLongLE(this.tradSesStartTime);
  }

  @Override
  public void decode(ByteBuf byteBuf) {
    this.marketId = readFixedString(byteBuf, 3);
    this.marketSegmentId = readFixedString(byteBuf, 3);
    this.tradingSessionId = readFixedString(byteBuf, 3);
    this.tradingSessionSubId = readFixedString(byteBuf, 3);
    this.tradSesStatus = byteBuf.readByte();
    this.tradSesStartTime = byteBuf.readLongLE();
  }

  @Override
  public int hashCode() {
    return Objects.hash(
        marketId,
        marketSegmentId,
        tradingSessionId,
        tradingSessionSubId,
        tradSesStatus,
        tradSesStartTime);
  }

  @Override
  public boolean equals(Object obj) {
    if (this == obj) {
      return true;
    }
    if (null == obj || getClass() != obj.getClass()) {
      return false;
    }
    TradingSessionStatus orther_ = (TradingSessionStatus) obj;
    return Objects.equals(marketId, orther_.marketId)
        && Objects.equals(marketSegmentId, orther_.marketSegmentId)
        && Objects.equals(tradingSessionId, orther_.tradingSessionId)
        && Objects.equals(tradingSessionSubId, orther_.tradingSessionSubId)
        && Objects.equals(tradSesStatus, orther_.tradSesStatus)
        && Objects.equals(tradSesStartTime, orther_.tradSesStartTime);
  }

  @Override
  public String toString() {
    return ""TradingSessionStatus [""
        + ""marketId=""
        + this.marketId
        + "", marketSegmentId=""
        + this.marketSegmentId
        + "", tradingSessionId=""
        + this.tradingSessionId
        + "", tradingSessionSubId=""
        + this.tradingSessionSubId
        + "", tradSesStatus=""
        + this.tradSesStatus
        + "", tradSesStartTime=""
        + this.tradSesStartTime
        + ""]"";
  }
}
".

