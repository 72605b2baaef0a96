-Q theories Verif
theories/Base.v
theories/L_Agree.v
theories/L_Base.v
theories/L_Base58.v
theories/L_Base64.v
theories/L_Base64b.v
theories/L_Batch.v
theories/L_Bech32.v
theories/L_BechErr.v
theories/L_Blame.v
theories/L_Blame2.v
theories/L_Blame3.v
theories/L_Broadcast.v
theories/L_Broadcast2.v
theories/L_Ceremony.v
theories/L_Comm.v
theories/L_Comm2.v
theories/L_Common.v
theories/L_Common2.v
theories/L_Common3.v
theories/L_Common4.v
theories/L_Conv.v
theories/L_Culprit.v
theories/L_Curve.v
theories/L_Fermat.v
theories/L_Honest.v
theories/L_Honest2.v
theories/L_Honest3.v
theories/L_Honest4.v
theories/L_Http.v
theories/L_Join.v
theories/L_Join2.v
theories/L_Join3.v
theories/L_Join4.v
theories/L_Json.v
theories/L_JsonSpec.v
theories/L_KeyFile.v
theories/L_KeySign.v
theories/L_Keygen.v
theories/L_Keys.v
theories/L_Lagrange.v
theories/L_Memory.v
theories/L_Notifier.v
theories/L_Notifier2.v
theories/L_OutCh.v
theories/L_Path.v
theories/L_Pool.v
theories/L_Pool2.v
theories/L_Pool3.v
theories/L_Prime.v
theories/L_Proto.v
theories/L_Semver.v
theories/L_Sort.v
theories/L_Storage.v
theories/L_Stream.v
theories/L_Threshold.v
theories/L_Utf8.v
theories/L_Wire.v
theories/L_Wire2.v
theories/L_Workers.v
theories/M_Base64.v
theories/M_Batch.v
theories/M_Bench.v
theories/M_Blame.v
theories/M_Broadcast.v
theories/M_Ceremony.v
theories/M_Comm.v
theories/M_Common.v
theories/M_Conv.v
theories/M_Honest.v
theories/M_Http.v
theories/M_Ids.v
theories/M_Join.v
theories/M_Json.v
theories/M_Key.v
theories/M_KeySign.v
theories/M_Keygen.v
theories/M_Keys.v
theories/M_Locks.v
theories/M_Loop.v
theories/M_Network.v
theories/M_Notifier.v
theories/M_OutCh.v
theories/M_Pool.v
theories/M_Proto.v
theories/M_Recovery.v
theories/M_Semver.v
theories/M_Server.v
theories/M_Shutdown.v
theories/M_Slices.v
theories/M_Sort.v
theories/M_Start.v
theories/M_Storage.v
theories/M_Stream.v
theories/M_Threshold.v
theories/M_Utf8.v
theories/M_Wire.v
theories/M_Workers.v
theories/P_Accept.v
theories/P_Agree.v
theories/P_Base64.v
theories/P_Batch.v
theories/P_Bench.v
theories/P_Blame.v
theories/P_BlameEnds.v
theories/P_BlameGrows.v
theories/P_Book.v
theories/P_BookText.v
theories/P_Broadcast.v
theories/P_Ceremony.v
theories/P_Comm.v
theories/P_Common.v
theories/P_Conv.v
theories/P_Counted.v
theories/P_Culprit.v
theories/P_Defaults.v
theories/P_Fields.v
theories/P_Files.v
theories/P_HandlerEnds.v
theories/P_Honest.v
theories/P_Http.v
theories/P_Ids.v
theories/P_Join.v
theories/P_JoinRef.v
theories/P_Json.v
theories/P_Json2.v
theories/P_Key.v
theories/P_KeyForms.v
theories/P_KeySign.v
theories/P_Keygen.v
theories/P_Keys.v
theories/P_Locks.v
theories/P_Loop.v
theories/P_LoopOrder.v
theories/P_Memory.v
theories/P_MemoryBound.v
theories/P_Notifier.v
theories/P_OutCh.v
theories/P_Pool.v
theories/P_Proto.v
theories/P_Reason.v
theories/P_Recovery.v
theories/P_ResetOnce.v
theories/P_Role.v
theories/P_Semver.v
theories/P_Shutdown.v
theories/P_Slices.v
theories/P_SlicesUnknown.v
theories/P_Start.v
theories/P_Storage.v
theories/P_Stream.v
theories/P_Threshold.v
theories/P_Timeout.v
theories/P_Turns.v
theories/P_Wire.v
theories/P_Workers.v
theories/S_Accept.v
theories/S_Base64.v
theories/S_Batch.v
theories/S_Bench.v
theories/S_Blame.v
theories/S_Broadcast.v
theories/S_Ceremony.v
theories/S_Comm.v
theories/S_Common.v
theories/S_Conv.v
theories/S_Culprit.v
theories/S_Honest.v
theories/S_Http.v
theories/S_Join.v
theories/S_Json.v
theories/S_Key.v
theories/S_KeySign.v
theories/S_Keygen.v
theories/S_Keys.v
theories/S_Locks.v
theories/S_Notifier.v
theories/S_OutCh.v
theories/S_Path.v
theories/S_Pool.v
theories/S_Proto.v
theories/S_Recovery.v
theories/S_Role.v
theories/S_Semver.v
theories/S_Shutdown.v
theories/S_Slices.v
theories/S_Start.v
theories/S_Storage.v
theories/S_Stream.v
theories/S_Threshold.v
theories/S_Timeout.v
theories/S_Utf8.v
theories/S_Wire.v
theories/S_Workers.v
