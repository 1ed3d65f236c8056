(* GENERATED by tools/mksrc.py: the files of /repo/risk-bin/src/main/java, verbatim. *)
From Verif.Java Require Import Text.
Open Scope text_scope.

(* risk-bin/src/main/java/com/finproto/risk/bin/messages/CancelReject.java *)
Definition text_risk_CancelReject : text :=
"// Code generated by fin-protoc. DO NOT EDIT.
package com.finproto.risk.bin.messages;

import com.finproto.codec.BinaryCodec;
import io.netty.buffer.ByteBuf;
import io.netty.util.internal.StringUtil;
import java.nio.charset.StandardCharsets;
import java.util.Objects;

public class CancelReject implements BinaryCodec {
  private String uniqueOrderId;
  private String uniqueOrigOrderId;
  private String clOrdId;
  private String origClOrdId;
  private int cxlRejReason;

  public String getUniqueOrderId() {
    return this.uniqueOrderId;
  }

  public void setUniqueOrderId(String uniqueOrderId) {
    this.uniqueOrderId = uniqueOrderId;
  }

  public String getUniqueOrigOrderId() {
    return this.uniqueOrigOrderId;
  }

  public void setUniqueOrigOrderId(String uniqueOrigOrderId) {
    this.uniqueOrigOrderId = uniqueOrigOrderId;
  }

  public String getClOrdId() {
    return this.clOrdId;
  }

  public void setClOrdId(String clOrdId) {
    this.clOrdId = clOrdId;
  }

  public String getOrigClOrdId() {
    return this.origClOrdId;
  }

  public void setOrigClOrdId(String origClOrdId) {
    this.origClOrdId = origClOrdId;
  }

  public int getCxlRejReason() {
    return this.cxlRejReason;
  }

  public void setCxlRejReason(int cxlRejReason) {
    this.cxlRejReason = cxlRejReason;
  }

  @Override
  public void encode(ByteBuf byteBuf) {
    if (StringUtil.isNullOrEmpty(this.uniqueOrderId)) {
      byteBuf.writeInt(0);
    } else {
      byte[] bytes = this.uniqueOrderId.getBytes(StandardCharsets.UTF_8);
      byteBuf.writeInt(bytes.length);
      byteBuf.writeBytes(bytes);
    }

    if (StringUtil.isNullOrEmpty(this.uniqueOrigOrderId)) {
      byteBuf.writeInt(0);
    } else {
      byte[] bytes = this.uniqueOrigOrderId.getBytes(StandardCharsets.UTF_8);
      byteBuf.writeInt(bytes.length);
      byteBuf.writeBytes(bytes);
    }

    if (StringUtil.isNullOrEmpty(this.clOrdId)) {
      byteBuf.writeInt(0);
    } else {
      byte[] bytes = this.clOrdId.getBytes(StandardCharsets.UTF_8);
      byteBuf.writeInt(bytes.length);
      byteBuf.writeBytes(bytes);
    }

    if (StringUtil.isNullOrEmpty(this.origClOrdId)) {
      byteBuf.writeInt(0);
    } else {
      byte[] bytes = this.origClOrdId.getBytes(StandardCharsets.UTF_8);
      byteBuf.writeInt(bytes.length);
      byteBuf.writeBytes(bytes);
    }

    byteBuf.writeInt(this.cxlRejReason);
  }

  @Override
  public void decode(ByteBuf byteBuf) {
    int uniqueOrderIdLen = byteBuf.readInt();
    if (uniqueOrderIdLen > 0) {
      this.uniqueOrderId =
          byteBuf.readCharSequence(uniqueOrderIdLen, StandardCharsets.UTF_8).toString();
    }
    int uniqueOrigOrderIdLen = byteBuf.readInt();
    if (uniqueOrigOrderIdLen > 0) {
      this.uniqueOrigOrderId =
          byteBuf.readCharSequence(uniqueOrigOrderIdLen, StandardCharsets.UTF_8).toString();
    }
    int clOrdIdLen = byteBuf.readInt();
    if (clOrdIdLen > 0) {
      this.clOrdId = byteBuf.readCharSequence(clOrdIdLen, StandardCharsets.UTF_8).toString();
    }
    int origClOrdIdLen = byteBuf.readInt();
    if (origClOrdIdLen > 0) {
      this.origClOrdId =
          byteBuf.readCharSequence(origClOrdIdLen, StandardCharsets.UTF_8).toString();
    }
    this.cxlRejReason = byteBuf.readInt();
  }

  @Override
  public int hashCode() {
    return Objects.hash(uniqueOrderId, uniqueOrigOrderId, clOrdId, origClOrdId, cxlRejReason);
  }

  @Override
  public boolean equals(Object obj) {
    if (this == obj) {
      return true;
    }
    if (null == obj || getClass() != obj.getClass()) {
      return false;
    }
    CancelReject orther_ = (CancelReject) obj;
    return Objects.equals(uniqueOrderId, orther_.uniqueOrderId)
        && Objects.equals(uniqueOrigOrderId, orther_.uniqueOrigOrderId)
        && Objects.equals(clOrdId, orther_.clOrdId)
        && Objects.equals(origClOrdId, orther_.origClOrdId)
        && Objects.equals(cxlRejReason, orther_.cxlRejReason);
  }

  @Override
  public String toString() {
    return ""CancelReject [""
        + ""uniqueOrderId=""
        + this.uniqueOrderId
        + "", uniqueOrigOrderId=""
        + this.uniqueOrigOrderId
        + "", clOrdId=""
        + this.clOrdId
        + "", origClOrdId=""
        + this.origClOrdId
        + "", cxlRejReason=""
        + this.cxlRejReason
        + ""]"";
  }
}
".

(* risk-bin/src/main/java/com/finproto/risk/bin/messages/ExecutionReport.java *)
Definition text_risk_ExecutionReport : text :=
"// Code generated by fin-protoc. DO NOT EDIT.
package com.finproto.risk.bin.messages;

import com.finproto.codec.BinaryCodec;
import io.netty.buffer.ByteBuf;
import io.netty.util.internal.StringUtil;
import java.nio.charset.StandardCharsets;
import java.util.Objects;

public class ExecutionReport implements BinaryCodec {
  private String uniqueOrderId;
  private String clOrdId;
  private String ordCnfmId;
  private long lastPx;
  private long lastQty;
  private String ordStatus;

  public String getUniqueOrderId() {
    return this.uniqueOrderId;
  }

  public void setUniqueOrderId(String uniqueOrderId) {
    this.uniqueOrderId = uniqueOrderId;
  }

  public String getClOrdId() {
    return this.clOrdId;
  }

  public void setClOrdId(String clOrdId) {
    this.clOrdId = clOrdId;
  }

  public String getOrdCnfmId() {
    return this.ordCnfmId;
  }

  public void setOrdCnfmId(String ordCnfmId) {
    this.ordCnfmId = ordCnfmId;
  }

  public long getLastPx() {
    return this.lastPx;
  }

  public void setLastPx(long lastPx) {
    this.lastPx = lastPx;
  }

  public long getLastQty() {
    return this.lastQty;
  }

  public void setLastQty(long lastQty) {
    this.lastQty = lastQty;
  }

  public String getOrdStatus() {
    return this.ordStatus;
  }

  public void setOrdStatus(String ordStatus) {
    this.ordStatus = ordStatus;
  }

  @Override
  public void encode(ByteBuf byteBuf) {
    if (StringUtil.isNullOrEmpty(this.uniqueOrderId)) {
      byteBuf.writeInt(0);
    } else {
      byte[] bytes = this.uniqueOrderId.getBytes(StandardCharsets.UTF_8);
      byteBuf.writeInt(bytes.length);
      byteBuf.writeBytes(bytes);
    }

    if (StringUtil.isNullOrEmpty(this.clOrdId)) {
      byteBuf.writeInt(0);
    } else {
      byte[] bytes = this.clOrdId.getBytes(StandardCharsets.UTF_8);
      byteBuf.writeInt(bytes.length);
      byteBuf.writeBytes(bytes);
    }

    if (StringUtil.isNullOrEmpty(this.ordCnfmId)) {
      byteBuf.writeInt(0);
    } else {
      byte[] bytes = this.ordCnfmId.getBytes(StandardCharsets.UTF_8);
      byteBuf.writeInt(bytes.length);
      byteBuf.writeBytes(bytes);
    }

    byteBuf.writeLong(this.lastPx);
    byteBuf.writeLong(this.lastQty);
    writeFixedString(byteBuf, this.ordStatus, 1);
  }

  @Override
  public void decode(ByteBuf byteBuf) {
    int uniqueOrderIdLen = byteBuf.readInt();
    if (uniqueOrderIdLen > 0) {
      this.uniqueOrderId =
          byteBuf.readCharSequence(uniqueOrderIdLen, StandardCharsets.UTF_8).toString();
    }
    int clOrdIdLen = byteBuf.readInt();
    if (clOrdIdLen > 0) {
      this.clOrdId = byteBuf.readCharSequence(clOrdIdLen, StandardCharsets.UTF_8).toString();
    }
    int ordCnfmIdLen = byteBuf.readInt();
    if (ordCnfmIdLen > 0) {
      this.ordCnfmId = byteBuf.readCharSequence(ordCnfmIdLen, StandardCharsets.UTF_8).toString();
    }
    this.lastPx = byteBuf.readLong();
    this.lastQty = byteBuf.readLong();
    this.ordStatus = readFixedString(byteBuf, 1);
  }

  @Override
  public int hashCode() {
    return Objects.hash(uniqueOrderId, clOrdId, ordCnfmId, lastPx, lastQty, ordStatus);
  }

  @Override
  public boolean equals(Object obj) {
    if (this == obj) {
      return true;
    }
    if (null == obj || getClass() != obj.getClass()) {
      return false;
    }
    ExecutionReport orther_ = (ExecutionReport) obj;
    return Objects.equals(uniqueOrderId, orther_.uniqueOrderId)
        && Objects.equals(clOrdId, orther_.clOrdId)
        && Objects.equals(ordCnfmId, orther_.ordCnfmId)
        && Objects.equals(lastPx, orther_.lastPx)
        && Objects.equals(lastQty, orther_.lastQty)
        && Objects.equals(ordStatus, orther_.ordStatus);
  }

  @Override
  public String toString() {
    return ""ExecutionReport [""
        + ""uniqueOrderId=""
        + this.uniqueOrderId
        + "", clOrdId=""
        + this.clOrdId
        + "", ordCnfmId=""
        + this.ordCnfmId
        + "", lastPx=""
        + this.lastPx
        + "", lastQty=""
        + this.lastQty
        + "", ordStatus=""
        + this.ordStatus
        + ""]"";
  }
}
".

(* risk-bin/src/main/java/com/finproto/risk/bin/messages/NewOrder.java *)
Definition text_risk_NewOrder : text :=
"// Code generated by fin-protoc. DO NOT EDIT.
package com.finproto.risk.bin.messages;

import com.finproto.codec.BinaryCodec;
import io.netty.buffer.ByteBuf;
import io.netty.util.internal.StringUtil;
import java.nio.charset.StandardCharsets;
import java.util.Objects;

public class NewOrder implements BinaryCodec {
  private String uniqueOrderId;
  private String clOrdId;
  private String securityId;
  private String side;
  private long price;
  private long orderQty;
  private String ordType;
  private String account;

  public String getUniqueOrderId() {
    return this.uniqueOrderId;
  }

  public void setUniqueOrderId(String uniqueOrderId) {
    this.uniqueOrderId = uniqueOrderId;
  }

  public String getClOrdId() {
    return this.clOrdId;
  }

  public void setClOrdId(String clOrdId) {
    this.clOrdId = clOrdId;
  }

  public String getSecurityId() {
    return this.securityId;
  }

  public void setSecurityId(String securityId) {
    this.securityId = securityId;
  }

  public String getSide() {
    return this.side;
  }

  public void setSide(String side) {
    this.side = side;
  }

  public long getPrice() {
    return this.price;
  }

  public void setPrice(long price) {
    this.price = price;
  }

  public long getOrderQty() {
    return this.orderQty;
  }

  public void setOrderQty(long orderQty) {
    this.orderQty = orderQty;
  }

  public String getOrdType() {
    return this.ordType;
  }

  public void setOrdType(String ordType) {
    this.ordType = ordType;
  }

  public String getAccount() {
    return this.account;
  }

  public void setAccount(String account) {
    this.account = account;
  }

  @Override
  public void encode(ByteBuf byteBuf) {
    if (StringUtil.isNullOrEmpty(this.uniqueOrderId)) {
      byteBuf.writeInt(0);
    } else {
      byte[] bytes = this.uniqueOrderId.getBytes(StandardCharsets.UTF_8);
      byteBuf.writeInt(bytes.length);
      byteBuf.writeBytes(bytes);
    }

    if (StringUtil.isNullOrEmpty(this.clOrdId)) {
      byteBuf.writeInt(0);
    } else {
      byte[] bytes = this.clOrdId.getBytes(StandardCharsets.UTF_8);
      byteBuf.writeInt(bytes.length);
      byteBuf.writeBytes(bytes);
    }

    if (StringUtil.isNullOrEmpty(this.securityId)) {
      byteBuf.writeInt(0);
    } else {
      byte[] bytes = this.securityId.getBytes(StandardCharsets.UTF_8);
      byteBuf.writeInt(bytes.length);
      byteBuf.writeBytes(bytes);
    }

    writeFixedString(byteBuf, this.side, 1);
    byteBuf.writeLong(this.price);
    byteBuf.writeLong(this.orderQty);
    writeFixedString(byteBuf, this.ordType, 1);
    if (StringUtil.isNullOrEmpty(this.account)) {
      byteBuf.writeInt(0);
    } else {
      byte[] bytes = this.account.getBytes(StandardCharsets.UTF_8);
      byteBuf.writeInt(bytes.length);
      byteBuf.writeBytes(bytes);
    }
  }

  @Override
  public void decode(ByteBuf byteBuf) {
    int uniqueOrderIdLen = byteBuf.readInt();
    if (uniqueOrderIdLen > 0) {
      this.uniqueOrderId =
          byteBuf.readCharSequence(uniqueOrderIdLen, StandardCharsets.UTF_8).toString();
    }
    int clOrdIdLen = byteBuf.readInt();
    if (clOrdIdLen > 0) {
      this.clOrdId = byteBuf.readCharSequence(clOrdIdLen, StandardCharsets.UTF_8).toString();
    }
    int securityIdLen = byteBuf.readInt();
    if (securityIdLen > 0) {
      this.securityId = byteBuf.readCharSequence(securityIdLen, StandardCharsets.UTF_8).toString();
    }
    this.side = readFixedString(byteBuf, 1);
    this.price = byteBuf.readLong();
    this.orderQty = byteBuf.readLong();
    this.ordType = readFixedString(byteBuf, 1);
    int accountLen = byteBuf.readInt();
    if (accountLen > 0) {
      this.account = byteBuf.readCharSequence(accountLen, StandardCharsets.UTF_8).toString();
    }
  }

  @Override
  public int hashCode() {
    return Objects.hash(
        uniqueOrderId, clOrdId, securityId, side, price, orderQty, ordType, account);
  }

  @Override
  public boolean equals(Object obj) {
    if (this == obj) {
      return true;
    }
    if (null == obj || getClass() != obj.getClass()) {
      return false;
    }
    NewOrder orther_ = (NewOrder) obj;
    return Objects.equals(uniqueOrderId, orther_.uniqueOrderId)
        && Objects.equals(clOrdId, orther_.clOrdId)
        && Objects.equals(securityId, orther_.securityId)
        && Objects.equals(side, orther_.side)
        && Objects.equals(price, orther_.price)
        && Objects.equals(orderQty, orther_.orderQty)
        && Objects.equals(ordType, orther_.ordType)
        && Objects.equals(account, orther_.account);
  }

  @Override
  public String toString() {
    return ""NewOrder [""
        + ""uniqueOrderId=""
        + this.uniqueOrderId
        + "", clOrdId=""
        + this.clOrdId
        + "", securityId=""
        + this.securityId
        + "", side=""
        + this.side
        + "", price=""
        + this.price
        + "", orderQty=""
        + this.orderQty
        + "", ordType=""
        + this.ordType
        + "", account=""
        + this.account
        + ""]"";
  }
}
".

(* risk-bin/src/main/java/com/finproto/risk/bin/messages/OrderCancel.java *)
Definition text_risk_OrderCancel : text :=
"// Code generated by fin-protoc. DO NOT EDIT.
package com.finproto.risk.bin.messages;

import com.finproto.codec.BinaryCodec;
import io.netty.buffer.ByteBuf;
import io.netty.util.internal.StringUtil;
import java.nio.charset.StandardCharsets;
import java.util.Objects;

public class OrderCancel implements BinaryCodec {
  private String uniqueOrderId;
  private String uniqueOrigOrderId;
  private String clOrdId;
  private String origClOrdId;
  private String securityId;

  public String getUniqueOrderId() {
    return this.uniqueOrderId;
  }

  public void setUniqueOrderId(String uniqueOrderId) {
    this.uniqueOrderId = uniqueOrderId;
  }

  public String getUniqueOrigOrderId() {
    return this.uniqueOrigOrderId;
  }

  public void setUniqueOrigOrderId(String uniqueOrigOrderId) {
    this.uniqueOrigOrderId = uniqueOrigOrderId;
  }

  public String getClOrdId() {
    return this.clOrdId;
  }

  public void setClOrdId(String clOrdId) {
    this.clOrdId = clOrdId;
  }

  public String getOrigClOrdId() {
    return this.origClOrdId;
  }

  public void setOrigClOrdId(String origClOrdId) {
    this.origClOrdId = origClOrdId;
  }

  public String getSecurityId() {
    return this.securityId;
  }

  public void setSecurityId(String securityId) {
    this.securityId = securityId;
  }

  @Override
  public void encode(ByteBuf byteBuf) {
    if (StringUtil.isNullOrEmpty(this.uniqueOrderId)) {
      byteBuf.writeInt(0);
    } else {
      byte[] bytes = this.uniqueOrderId.getBytes(StandardCharsets.UTF_8);
      byteBuf.writeInt(bytes.length);
      byteBuf.writeBytes(bytes);
    }

    if (StringUtil.isNullOrEmpty(this.uniqueOrigOrderId)) {
      byteBuf.writeInt(0);
    } else {
      byte[] bytes = this.uniqueOrigOrderId.getBytes(StandardCharsets.UTF_8);
      byteBuf.writeInt(bytes.length);
      byteBuf.writeBytes(bytes);
    }

    if (StringUtil.isNullOrEmpty(this.clOrdId)) {
      byteBuf.writeInt(0);
    } else {
      byte[] bytes = this.clOrdId.getBytes(StandardCharsets.UTF_8);
      byteBuf.writeInt(bytes.length);
      byteBuf.writeBytes(bytes);
    }

    if (StringUtil.isNullOrEmpty(this.origClOrdId)) {
      byteBuf.writeInt(0);
    } else {
      byte[] bytes = this.origClOrdId.getBytes(StandardCharsets.UTF_8);
      byteBuf.writeInt(bytes.length);
      byteBuf.writeBytes(bytes);
    }

    if (StringUtil.isNullOrEmpty(this.securityId)) {
      byteBuf.writeInt(0);
    } else {
      byte[] bytes = this.securityId.getBytes(StandardCharsets.UTF_8);
      byteBuf.writeInt(bytes.length);
      byteBuf.writeBytes(bytes);
    }
  }

  @Override
  public void decode(ByteBuf byteBuf) {
    int uniqueOrderIdLen = byteBuf.readInt();
    if (uniqueOrderIdLen > 0) {
      this.uniqueOrderId =
          byteBuf.readCharSequence(uniqueOrderIdLen, StandardCharsets.UTF_8).toString();
    }
    int uniqueOrigOrderIdLen = byteBuf.readInt();
    if (uniqueOrigOrderIdLen > 0) {
      this.uniqueOrigOrderId =
          byteBuf.readCharSequence(uniqueOrigOrderIdLen, StandardCharsets.UTF_8).toString();
    }
    int clOrdIdLen = byteBuf.readInt();
    if (clOrdIdLen > 0) {
      this.clOrdId = byteBuf.readCharSequence(clOrdIdLen, StandardCharsets.UTF_8).toString();
    }
    int origClOrdIdLen = byteBuf.readInt();
    if (origClOrdIdLen > 0) {
      this.origClOrdId =
          byteBuf.readCharSequence(origClOrdIdLen, StandardCharsets.UTF_8).toString();
    }
    int securityIdLen = byteBuf.readInt();
    if (securityIdLen > 0) {
      this.securityId = byteBuf.readCharSequence(securityIdLen, StandardCharsets.UTF_8).toString();
    }
  }

  @Override
  public int hashCode() {
    return Objects.hash(uniqueOrderId, uniqueOrigOrderId, clOrdId, origClOrdId, securityId);
  }

  @Override
  public boolean equals(Object obj) {
    if (this == obj) {
      return true;
    }
    if (null == obj || getClass() != obj.getClass()) {
      return false;
    }
    OrderCancel orther_ = (OrderCancel) obj;
    return Objects.equals(uniqueOrderId, orther_.uniqueOrderId)
        && Objects.equals(uniqueOrigOrderId, orther_.uniqueOrigOrderId)
        && Objects.equals(clOrdId, orther_.clOrdId)
        && Objects.equals(origClOrdId, orther_.origClOrdId)
        && Objects.equals(securityId, orther_.securityId);
  }

  @Override
  public String toString() {
    return ""OrderCancel [""
        + ""uniqueOrderId=""
        + this.uniqueOrderId
        + "", uniqueOrigOrderId=""
        + this.uniqueOrigOrderId
        + "", clOrdId=""
        + this.clOrdId
        + "", origClOrdId=""
        + this.origClOrdId
        + "", securityId=""
        + this.securityId
        + ""]"";
  }
}
".

(* risk-bin/src/main/java/com/finproto/risk/bin/messages/OrderConfirm.java *)
Definition text_risk_OrderConfirm : text :=
"// Code generated by fin-protoc. DO NOT EDIT.
package com.finproto.risk.bin.messages;

import com.finproto.codec.BinaryCodec;
import io.netty.buffer.ByteBuf;
import io.netty.util.internal.StringUtil;
import java.nio.charset.StandardCharsets;
import java.util.Objects;

public class OrderConfirm implements BinaryCodec {
  private String uniqueOrderId;
  private String uniqueOrigOrderId;
  private String clOrdId;
  private String execType;
  private int ordRejReason;
  private String ordCnfmId;

  public String getUniqueOrderId() {
    return this.uniqueOrderId;
  }

  public void setUniqueOrderId(String uniqueOrderId) {
    this.uniqueOrderId = uniqueOrderId;
  }

  public String getUniqueOrigOrderId() {
    return this.uniqueOrigOrderId;
  }

  public void setUniqueOrigOrderId(String uniqueOrigOrderId) {
    this.uniqueOrigOrderId = uniqueOrigOrderId;
  }

  public String getClOrdId() {
    return this.clOrdId;
  }

  public void setClOrdId(String clOrdId) {
    this.clOrdId = clOrdId;
  }

  public String getExecType() {
    return this.execType;
  }

  public void setExecType(String execType) {
    this.execType = execType;
  }

  public int getOrdRejReason() {
    return this.ordRejReason;
  }

  public void setOrdRejReason(int ordRejReason) {
    this.ordRejReason = ordRejReason;
  }

  public String getOrdCnfmId() {
    return this.ordCnfmId;
  }

  public void setOrdCnfmId(String ordCnfmId) {
    this.ordCnfmId = ordCnfmId;
  }

  @Override
  public void encode(ByteBuf byteBuf) {
    if (StringUtil.isNullOrEmpty(this.uniqueOrderId)) {
      byteBuf.writeInt(0);
    } else {
      byte[] bytes = this.uniqueOrderId.getBytes(StandardCharsets.UTF_8);
      byteBuf.writeInt(bytes.length);
      byteBuf.writeBytes(bytes);
    }

    if (StringUtil.isNullOrEmpty(this.uniqueOrigOrderId)) {
      byteBuf.writeInt(0);
    } else {
      byte[] bytes = this.uniqueOrigOrderId.getBytes(StandardCharsets.UTF_8);
      byteBuf.writeInt(bytes.length);
      byteBuf.writeBytes(bytes);
    }

    if (StringUtil.isNullOrEmpty(this.clOrdId)) {
      byteBuf.writeInt(0);
    } else {
      byte[] bytes = this.clOrdId.getBytes(StandardCharsets.UTF_8);
      byteBuf.writeInt(bytes.length);
      byteBuf.writeBytes(bytes);
    }

    writeFixedString(byteBuf, this.execType, 1);
    byteBuf.writeInt(this.ordRejReason);
    if (StringUtil.isNullOrEmpty(this.ordCnfmId)) {
      byteBuf.writeInt(0);
    } else {
      byte[] bytes = this.ordCnfmId.getBytes(StandardCharsets.UTF_8);
      byteBuf.writeInt(bytes.length);
      byteBuf.writeBytes(bytes);
    }
  }

  @Override
  public void decode(ByteBuf byteBuf) {
    int uniqueOrderIdLen = byteBuf.readInt();
    if (uniqueOrderIdLen > 0) {
      this.uniqueOrderId =
          byteBuf.readCharSequence(uniqueOrderIdLen, StandardCharsets.UTF_8).toString();
    }
    int uniqueOrigOrderIdLen = byteBuf.readInt();
    if (uniqueOrigOrderIdLen > 0) {
      this.uniqueOrigOrderId =
          byteBuf.readCharSequence(uniqueOrigOrderIdLen, StandardCharsets.UTF_8).toString();
    }
    int clOrdIdLen = byteBuf.readInt();
    if (clOrdIdLen > 0) {
      this.clOrdId = byteBuf.readCharSequence(clOrdIdLen, StandardCharsets.UTF_8).toString();
    }
    this.execType = readFixedString(byteBuf, 1);
    this.ordRejReason = byteBuf.readInt();
    int ordCnfmIdLen = byteBuf.readInt();
    if (ordCnfmIdLen > 0) {
      this.ordCnfmId = byteBuf.readCharSequence(ordCnfmIdLen, StandardCharsets.UTF_8).toString();
    }
  }

  @Override
  public int hashCode() {
    return Objects.hash(
        uniqueOrderId, uniqueOrigOrderId, clOrdId, execType, ordRejReason, ordCnfmId);
  }

  @Override
  public boolean equals(Object obj) {
    if (this == obj) {
      return true;
    }
    if (null == obj || getClass() != obj.getClass()) {
      return false;
    }
    OrderConfirm orther_ = (OrderConfirm) obj;
    return Objects.equals(uniqueOrderId, orther_.uniqueOrderId)
        && Objects.equals(uniqueOrigOrderId, orther_.uniqueOrigOrderId)
        && Objects.equals(clOrdId, orther_.clOrdId)
        && Objects.equals(execType, orther_.execType)
        && Objects.equals(ordRejReason, orther_.ordRejReason)
        && Objects.equals(ordCnfmId, orther_.ordCnfmId);
  }

  @Override
  public String toString() {
    return ""OrderConfirm [""
        + ""uniqueOrderId=""
        + this.uniqueOrderId
        + "", uniqueOrigOrderId=""
        + this.uniqueOrigOrderId
        + "", clOrdId=""
        + this.clOrdId
        + "", execType=""
        + this.execType
        + "", ordRejReason=""
        + this.ordRejReason
        + "", ordCnfmId=""
        + this.ordCnfmId
        + ""]"";
  }
}
".

(* risk-bin/src/main/java/com/finproto/risk/bin/messages/RcBinary.java *)
Definition text_risk_RcBinary : text :=
"// Code generated by fin-protoc. DO NOT EDIT.
package com.finproto.risk.bin.messages;

import com.finproto.codec.BinaryCodec;
import io.netty.buffer.ByteBuf;
import java.util.HashMap;
import java.util.Map;
import java.util.Objects;
import java.util.function.Supplier;

public class RcBinary implements BinaryCodec {
  private int msgType;
  private int version;
  private int msgBodyLen;
  private BinaryCodec body;

  public int getMsgType() {
    return this.msgType;
  }

  public void setMsgType(int msgType) {
    this.msgType = msgType;
  }

  public int getVersion() {
    return this.version;
  }

  public void setVersion(int version) {
    this.version = version;
  }

  public int getMsgBodyLen() {
    return this.msgBodyLen;
  }

  public void setMsgBodyLen(int msgBodyLen) {
    this.msgBodyLen = msgBodyLen;
  }

  public BinaryCodec getBody() {
    return this.body;
  }

  public void setBody(BinaryCodec body) {
    this.body = body;
  }

  @Override
  public void encode(ByteBuf byteBuf) {
    byteBuf.writeInt(this.msgType);
    byteBuf.writeInt(this.version);
    int msgBodyLenPos = byteBuf.writerIndex();
    byteBuf.writeInt(0);

    int bodyStart = byteBuf.writerIndex();
    if (this.body != null) {
      this.body.encode(byteBuf);
    }
    int bodyEnd = byteBuf.writerIndex();
    this.msgBodyLen = (int) (bodyEnd - bodyStart);
    byteBuf.setInt(msgBodyLenPos, this.msgBodyLen);
  }

  @Override
  public void decode(ByteBuf byteBuf) {
    this.msgType = byteBuf.readInt();
    this.version = byteBuf.readInt();
    this.msgBodyLen = byteBuf.readInt();
    this.body = BodyMessageFactory.getInstance().create(this.msgType);
    this.body.decode(byteBuf);
  }

  @Override
  public int hashCode() {
    return Objects.hash(msgType, version, msgBodyLen, body);
  }

  @Override
  public boolean equals(Object obj) {
    if (this == obj) {
      return true;
    }
    if (null == obj || getClass() != obj.getClass()) {
      return false;
    }
    RcBinary orther_ = (RcBinary) obj;
    return Objects.equals(msgType, orther_.msgType)
        && Objects.equals(version, orther_.version)
        && Objects.equals(msgBodyLen, orther_.msgBodyLen)
        && Objects.equals(body, orther_.body);
  }

  @Override
  public String toString() {
    return ""RcBinary [""
        + ""msgType=""
        + this.msgType
        + "", version=""
        + this.version
        + "", msgBodyLen=""
        + this.msgBodyLen
        + "", body=""
        + this.body
        + ""]"";
  }

  public static enum BodyMessageFactory {
    INSTANCE;
    private final Map<Integer, Supplier<BinaryCodec>> bodyMap = new HashMap<>();

    static {
      getInstance().register((int) 100101, NewOrder::new);
      getInstance().register((int) 200102, OrderConfirm::new);
      getInstance().register((int) 200115, ExecutionReport::new);
      getInstance().register((int) 190007, OrderCancel::new);
      getInstance().register((int) 290008, CancelReject::new);
      getInstance().register((int) 800001, RiskResult::new);
    }

    public BinaryCodec create(Integer msgType) {
      Supplier<BinaryCodec> supplier = bodyMap.get(msgType);
      if (null == supplier) {
        throw new IllegalArgumentException(""Unsupported MsgType:"" + msgType);
      }
      return supplier.get();
    }

    public void register(Integer msgType, Supplier<BinaryCodec> supplier) {
      bodyMap.put(msgType, supplier);
    }

    public boolean remove(Integer msgType) {
      return null != bodyMap.remove(msgType);
    }

    public static BodyMessageFactory getInstance() {
      return INSTANCE;
    }
  }
}
".

(* risk-bin/src/main/java/com/finproto/risk/bin/messages/RiskResult.java *)
Definition text_risk_RiskResult : text :=
"// Code generated by fin-protoc. DO NOT EDIT.
package com.finproto.risk.bin.messages;

import com.finproto.codec.BinaryCodec;
import io.netty.buffer.ByteBuf;
import io.netty.util.internal.StringUtil;
import java.nio.charset.StandardCharsets;
import java.util.Objects;

public class RiskResult implements BinaryCodec {
  private String uniqueOrderId;
  private byte riskStatus;
  private String riskReason;

  public String getUniqueOrderId() {
    return this.uniqueOrderId;
  }

  public void setUniqueOrderId(String uniqueOrderId) {
    this.uniqueOrderId = uniqueOrderId;
  }

  public byte getRiskStatus() {
    return this.riskStatus;
  }

  public void setRiskStatus(byte riskStatus) {
    this.riskStatus = riskStatus;
  }

  public String getRiskReason() {
    return this.riskReason;
  }

  public void setRiskReason(String riskReason) {
    this.riskReason = riskReason;
  }

  @Override
  public void encode(ByteBuf byteBuf) {
    if (StringUtil.isNullOrEmpty(this.uniqueOrderId)) {
      byteBuf.writeInt(0);
    } else {
      byte[] bytes = this.uniqueOrderId.getBytes(StandardCharsets.UTF_8);
      byteBuf.writeInt(bytes.length);
      byteBuf.writeBytes(bytes);
    }

    byteBuf.writeByte(this.riskStatus);
    if (StringUtil.isNullOrEmpty(this.riskReason)) {
      byteBuf.writeInt(0);
    } else {
      byte[] bytes = this.riskReason.getBytes(StandardCharsets.UTF_8);
      byteBuf.writeInt(bytes.length);
      byteBuf.writeBytes(bytes);
    }
  }

  @Override
  public void decode(ByteBuf byteBuf) {
    int uniqueOrderIdLen = byteBuf.readInt();
    if (uniqueOrderIdLen > 0) {
      this.uniqueOrderId =
          byteBuf.readCharSequence(uniqueOrderIdLen, StandardCharsets.UTF_8).toString();
    }
    this.riskStatus = byteBuf.readByte();
    int riskReasonLen = byteBuf.readInt();
    if (riskReasonLen > 0) {
      this.riskReason = byteBuf.readCharSequence(riskReasonLen, StandardCharsets.UTF_8).toString();
    }
  }

  @Override
  public int hashCode() {
    return Objects.hash(uniqueOrderId, riskStatus, riskReason);
  }

  @Override
  public boolean equals(Object obj) {
    if (this == obj) {
      return true;
    }
    if (null == obj || getClass() != obj.getClass()) {
      return false;
    }
    RiskResult orther_ = (RiskResult) obj;
    return Objects.equals(uniqueOrderId, orther_.uniqueOrderId)
        && Objects.equals(riskStatus, orther_.riskStatus)
        && Objects.equals(riskReason, orther_.riskReason);
  }

  @Override
  public String toString() {
    return ""RiskResult [""
        + ""uniqueOrderId=""
        + this.uniqueOrderId
        + "", riskStatus=""
        + this.riskStatus
        + "", riskReason=""
        + this.riskReason
        + ""]"";
  }
}
".

