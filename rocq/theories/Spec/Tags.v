(* Which class each tag stands for: the register(...) calls in the static initialisers of the message classes, and the constants of SseBinary.MessageType with the class registered under each.
   Read off /repo by tools/mktags.py, which has nothing in common with the translator of the model. *)
From Coq Require Import ZArith List String.
From Verif.Model Require Import Ast Interp Show Factory.
Import ListNotations.
Open Scope Z_scope.
Open Scope string_scope.

Definition dispatch : list (string * list (key * string)) :=
  [ ("sample.RootPacket",
      [ (KInt 1, "sample.BasicPacket");
        (KInt 2, "sample.StringPacket");
        (KInt 3, "sample.NestedPacket");
        (KInt 4, "sample.EmptyPacket") ]);
    ("risk.RcBinary",
      [ (KInt 100101, "risk.NewOrder");
        (KInt 200102, "risk.OrderConfirm");
        (KInt 200115, "risk.ExecutionReport");
        (KInt 190007, "risk.OrderCancel");
        (KInt 290008, "risk.CancelReject");
        (KInt 800001, "risk.RiskResult") ]);
    ("sse.SseBinary",
      [ (KInt 33, "sse.Heartbeat");
        (KInt 40, "sse.Logon");
        (KInt 41, "sse.Logout");
        (KInt 58, "sse.NewOrderSingle");
        (KInt 61, "sse.OrderCancel");
        (KInt 32, "sse.Confirm");
        (KInt 59, "sse.CancelReject");
        (KInt 103, "sse.Report");
        (KInt 204, "sse.OrderReject");
        (KInt 209, "sse.PlatformState");
        (KInt 208, "sse.ExecRptInfo");
        (KInt 206, "sse.ExecRptSync");
        (KInt 207, "sse.ExecRptSyncRsp");
        (KInt 210, "sse.ExecRptEndOfStream") ]);
    ("szse.ExecutionConfirm",
      [ (KStr (chars "010"), "szse.Extend200102");
        (KStr (chars "020"), "szse.Extend200202");
        (KStr (chars "030"), "szse.Extend200302");
        (KStr (chars "051"), "szse.Extend200502");
        (KStr (chars "052"), "szse.Extend200502");
        (KStr (chars "060"), "szse.Extend200602");
        (KStr (chars "061"), "szse.Extend200602");
        (KStr (chars "070"), "szse.Extend200702");
        (KStr (chars "150"), "szse.Extend201502");
        (KStr (chars "151"), "szse.Extend201502");
        (KStr (chars "152"), "szse.Extend201502");
        (KStr (chars "160"), "szse.Extend201602");
        (KStr (chars "170"), "szse.Extend201702");
        (KStr (chars "180"), "szse.Extend201802");
        (KStr (chars "181"), "szse.Extend201802");
        (KStr (chars "270"), "szse.Extend202702");
        (KStr (chars "271"), "szse.Extend202702");
        (KStr (chars "280"), "szse.Extend202802");
        (KStr (chars "281"), "szse.Extend202802");
        (KStr (chars "290"), "szse.Extend202902");
        (KStr (chars "291"), "szse.Extend202902");
        (KStr (chars "630"), "szse.Extend206302");
        (KStr (chars "350"), "szse.Extend203502");
        (KStr (chars "351"), "szse.Extend203502");
        (KStr (chars "370"), "szse.Extend203702");
        (KStr (chars "410"), "szse.Extend204102");
        (KStr (chars "417"), "szse.Extend204129");
        (KStr (chars "470"), "szse.Extend204702") ]);
    ("szse.ExecutionReport",
      [ (KStr (chars "010"), "szse.Extend200115");
        (KStr (chars "020"), "szse.Extend200215");
        (KStr (chars "030"), "szse.Extend200315");
        (KStr (chars "051"), "szse.Extend200515");
        (KStr (chars "052"), "szse.Extend200515");
        (KStr (chars "056"), "szse.Extend200515");
        (KStr (chars "057"), "szse.Extend200515");
        (KStr (chars "060"), "szse.Extend200615");
        (KStr (chars "061"), "szse.Extend200615");
        (KStr (chars "070"), "szse.Extend200715");
        (KStr (chars "630"), "szse.Extend206315");
        (KStr (chars "370"), "szse.Extend203715");
        (KStr (chars "410"), "szse.Extend204115");
        (KStr (chars "412"), "szse.Extend204115");
        (KStr (chars "413"), "szse.Extend204115");
        (KStr (chars "415"), "szse.Extend204115");
        (KStr (chars "416"), "szse.Extend204115");
        (KStr (chars "417"), "szse.Extend204130");
        (KStr (chars "470"), "szse.Extend204715") ]);
    ("szse.NewOrder",
      [ (KStr (chars "010"), "szse.Extend100101");
        (KStr (chars "020"), "szse.Extend100201");
        (KStr (chars "030"), "szse.Extend100301");
        (KStr (chars "051"), "szse.Extend100501");
        (KStr (chars "052"), "szse.Extend100501");
        (KStr (chars "060"), "szse.Extend100601");
        (KStr (chars "061"), "szse.Extend100601");
        (KStr (chars "070"), "szse.Extend100701");
        (KStr (chars "150"), "szse.Extend101501");
        (KStr (chars "151"), "szse.Extend101501");
        (KStr (chars "152"), "szse.Extend101501");
        (KStr (chars "160"), "szse.Extend101601");
        (KStr (chars "170"), "szse.Extend101701");
        (KStr (chars "180"), "szse.Extend101801");
        (KStr (chars "181"), "szse.Extend101801");
        (KStr (chars "270"), "szse.Extend102701");
        (KStr (chars "271"), "szse.Extend102701");
        (KStr (chars "280"), "szse.Extend102801");
        (KStr (chars "281"), "szse.Extend102801");
        (KStr (chars "290"), "szse.Extend102901");
        (KStr (chars "291"), "szse.Extend102901");
        (KStr (chars "630"), "szse.Extend106301");
        (KStr (chars "350"), "szse.Extend103501");
        (KStr (chars "351"), "szse.Extend103501");
        (KStr (chars "370"), "szse.Extend103701");
        (KStr (chars "410"), "szse.Extend104101");
        (KStr (chars "417"), "szse.Extend104128");
        (KStr (chars "470"), "szse.Extend104701") ]);
    ("szse.SzseBinary",
      [ (KInt 1, "szse.Logon");
        (KInt 2, "szse.Logout");
        (KInt 3, "szse.Heartbeat");
        (KInt 4, "szse.BusinessReject");
        (KInt 5, "szse.ReportSynchronization");
        (KInt 6, "szse.PlatformStateInfo");
        (KInt 7, "szse.ReportFinished");
        (KInt 9, "szse.PlatformPartition");
        (KInt 10, "szse.TradingSessionStatus");
        (KInt 100101, "szse.NewOrder");
        (KInt 100201, "szse.NewOrder");
        (KInt 100301, "szse.NewOrder");
        (KInt 100401, "szse.NewOrder");
        (KInt 100501, "szse.NewOrder");
        (KInt 100601, "szse.NewOrder");
        (KInt 100701, "szse.NewOrder");
        (KInt 101201, "szse.NewOrder");
        (KInt 101301, "szse.NewOrder");
        (KInt 101401, "szse.NewOrder");
        (KInt 101501, "szse.NewOrder");
        (KInt 101601, "szse.NewOrder");
        (KInt 101701, "szse.NewOrder");
        (KInt 101801, "szse.NewOrder");
        (KInt 101901, "szse.NewOrder");
        (KInt 102301, "szse.NewOrder");
        (KInt 102701, "szse.NewOrder");
        (KInt 102801, "szse.NewOrder");
        (KInt 102901, "szse.NewOrder");
        (KInt 103101, "szse.NewOrder");
        (KInt 106301, "szse.NewOrder");
        (KInt 103301, "szse.NewOrder");
        (KInt 103501, "szse.NewOrder");
        (KInt 103701, "szse.NewOrder");
        (KInt 104101, "szse.NewOrder");
        (KInt 104128, "szse.NewOrder");
        (KInt 104701, "szse.NewOrder");
        (KInt 200102, "szse.ExecutionConfirm");
        (KInt 200202, "szse.ExecutionConfirm");
        (KInt 200302, "szse.ExecutionConfirm");
        (KInt 200402, "szse.ExecutionConfirm");
        (KInt 200502, "szse.ExecutionConfirm");
        (KInt 200602, "szse.ExecutionConfirm");
        (KInt 200702, "szse.ExecutionConfirm");
        (KInt 201202, "szse.ExecutionConfirm");
        (KInt 201302, "szse.ExecutionConfirm");
        (KInt 201402, "szse.ExecutionConfirm");
        (KInt 201502, "szse.ExecutionConfirm");
        (KInt 201602, "szse.ExecutionConfirm");
        (KInt 201702, "szse.ExecutionConfirm");
        (KInt 201802, "szse.ExecutionConfirm");
        (KInt 201902, "szse.ExecutionConfirm");
        (KInt 202202, "szse.ExecutionConfirm");
        (KInt 202302, "szse.ExecutionConfirm");
        (KInt 202702, "szse.ExecutionConfirm");
        (KInt 202802, "szse.ExecutionConfirm");
        (KInt 202902, "szse.ExecutionConfirm");
        (KInt 203102, "szse.ExecutionConfirm");
        (KInt 206302, "szse.ExecutionConfirm");
        (KInt 203302, "szse.ExecutionConfirm");
        (KInt 203502, "szse.ExecutionConfirm");
        (KInt 203702, "szse.ExecutionConfirm");
        (KInt 204102, "szse.ExecutionConfirm");
        (KInt 204129, "szse.ExecutionConfirm");
        (KInt 204702, "szse.ExecutionConfirm");
        (KInt 200115, "szse.ExecutionReport");
        (KInt 200215, "szse.ExecutionReport");
        (KInt 200315, "szse.ExecutionReport");
        (KInt 200415, "szse.ExecutionReport");
        (KInt 200515, "szse.ExecutionReport");
        (KInt 200615, "szse.ExecutionReport");
        (KInt 200715, "szse.ExecutionReport");
        (KInt 206315, "szse.ExecutionReport");
        (KInt 203715, "szse.ExecutionReport");
        (KInt 204115, "szse.ExecutionReport");
        (KInt 204130, "szse.ExecutionReport");
        (KInt 190007, "szse.OrderCancelRequest");
        (KInt 290008, "szse.CancelReject") ]);
    ("bjse.AllegeQuote",
      [ (KStr (chars "070"), "bjse.AllegeQuoteExtend070") ]);
    ("bjse.BjseBinary",
      [ (KInt 1, "bjse.Logon");
        (KInt 2, "bjse.Logout");
        (KInt 3, "bjse.Heartbeat");
        (KInt 101000, "bjse.NewOrder");
        (KInt 102000, "bjse.OrderCancelRequest");
        (KInt 201000, "bjse.CancelReject");
        (KInt 202010, "bjse.ExecutionConfirm");
        (KInt 203010, "bjse.ExecutionReport");
        (KInt 5, "bjse.ReportSynchronization");
        (KInt 6, "bjse.PlatformStateInfo");
        (KInt 7, "bjse.ReportFinished") ]);
    ("bjse.ExecutionConfirm",
      [ (KStr (chars "010"), "bjse.ConfirmExtend010");
        (KStr (chars "040"), "bjse.ConfirmExtend040");
        (KStr (chars "041"), "bjse.ConfirmExtend041");
        (KStr (chars "042"), "bjse.ConfirmExtend042");
        (KStr (chars "043"), "bjse.ConfirmExtend043");
        (KStr (chars "044"), "bjse.ConfirmExtend044");
        (KStr (chars "045"), "bjse.ConfirmExtend045");
        (KStr (chars "050"), "bjse.ConfirmExtend050") ]);
    ("bjse.ExecutionReport",
      [ (KStr (chars "010"), "bjse.ReportExtend010");
        (KStr (chars "040"), "bjse.ReportExtend040");
        (KStr (chars "050"), "bjse.ReportExtend050") ]);
    ("bjse.NewOrder",
      [ (KStr (chars "010"), "bjse.ExtendNewOrder010");
        (KStr (chars "040"), "bjse.ExtendNewOrder040");
        (KStr (chars "041"), "bjse.ExtendNewOrder041");
        (KStr (chars "042"), "bjse.ExtendNewOrder042");
        (KStr (chars "043"), "bjse.ExtendNewOrder043");
        (KStr (chars "044"), "bjse.ExtendNewOrder044");
        (KStr (chars "045"), "bjse.ExtendNewOrder045");
        (KStr (chars "050"), "bjse.ExtendNewOrder050") ]);
    ("bjse.Quote",
      [ (KStr (chars "070"), "bjse.QuoteExtend070");
        (KStr (chars "071"), "bjse.QuoteExtend071") ]);
    ("bjse.QuoteResponse",
      [ (KStr (chars "070"), "bjse.QuoteResponseExtend070") ]);
    ("bjse.QuoteStatusReport",
      [ (KStr (chars "070"), "bjse.QuoteStatusReportExtend070") ]);
    ("bjse.TradeCaptureCofirm",
      [ (KStr (chars "031"), "bjse.TradeCaptureCofirmExtend031");
        (KStr (chars "051"), "bjse.TradeCaptureCofirmExtend051");
        (KStr (chars "060"), "bjse.TradeCaptureCofirmExtend060");
        (KStr (chars "061"), "bjse.TradeCaptureCofirmExtend061");
        (KStr (chars "062"), "bjse.TradeCaptureCofirmExtend062") ]);
    ("bjse.TradeCaptureConfirm",
      [ (KStr (chars "031"), "bjse.TradeCaptureConfirmExtend031");
        (KStr (chars "051"), "bjse.TradeCaptureConfirmExtend051");
        (KStr (chars "060"), "bjse.TradeCaptureConfirmExtend060");
        (KStr (chars "061"), "bjse.TradeCaptureConfirmExtend061");
        (KStr (chars "062"), "bjse.TradeCaptureConfirmExtend062") ]);
    ("bjse.TradeCaptureReport",
      [ (KStr (chars "031"), "bjse.TradeCaptureReportExtend031");
        (KStr (chars "051"), "bjse.TradeCaptureReportExtend051");
        (KStr (chars "060"), "bjse.TradeCaptureReportExtend060");
        (KStr (chars "061"), "bjse.TradeCaptureReportExtend061");
        (KStr (chars "062"), "bjse.TradeCaptureReportExtend062") ]);
    ("bjse.TradeCaptureReportAck",
      [ (KStr (chars "031"), "bjse.TradeCaptureReportAckExtend031");
        (KStr (chars "051"), "bjse.TradeCaptureReportAckExtend051");
        (KStr (chars "060"), "bjse.TradeCaptureReportAckExtend060");
        (KStr (chars "061"), "bjse.TradeCaptureReportAckExtend061");
        (KStr (chars "062"), "bjse.TradeCaptureReportAckExtend062") ]) ].

Definition sse_types : list (string * Z * string) :=
  [ ("HEARTBEAT", 33, "sse.Heartbeat");
    ("LOGON", 40, "sse.Logon");
    ("LOGOUT", 41, "sse.Logout");
    ("NEW_ORDER_SINGLE", 58, "sse.NewOrderSingle");
    ("ORDER_CANCEL", 61, "sse.OrderCancel");
    ("CONFIRM", 32, "sse.Confirm");
    ("CANCEL_REJECT", 59, "sse.CancelReject");
    ("REPORT", 103, "sse.Report");
    ("ORDER_REJECT", 204, "sse.OrderReject");
    ("PLATFORM_STATE", 209, "sse.PlatformState");
    ("EXEC_RPT_INFO", 208, "sse.ExecRptInfo");
    ("EXEC_RPT_SYNC", 206, "sse.ExecRptSync");
    ("EXEC_RPT_SYNC_RSP", 207, "sse.ExecRptSyncRsp");
    ("EXEC_RPT_END_OF_STREAM", 210, "sse.ExecRptEndOfStream") ].
