-Q theories Verif
theories/Py.v
theories/F64.v
theories/Struct.v
theories/Utf.v
theories/Utility.v
theories/Const.v
theories/Enum.v
theories/Decode.v
theories/Fixtures.v
theories/Spec.v
theories/Messages.v
theories/Meaning.v
theories/P_Base.v
theories/P_Util.v
theories/P_Dict.v
theories/P_Idem.v
theories/Shape.v
theories/P_Shape.v
theories/P_Trace.v
theories/P_Does.v
theories/P_Facts.v
theories/P_Sym.v
theories/P_Vals1.v
theories/P_Vals2.v
theories/P_Vals3.v
theories/P_Vals4.v
theories/P_Vals5.v
theories/P_Frame.v
theories/P_Trunc.v
theories/P_Str.v
theories/P_Float.v
theories/P_Time.v
theories/SpecParse.v
theories/P_Num.v
theories/Prop_Wire.v
theories/Protocol.v
theories/P_Proto1.v
theories/P_Proto2.v
theories/P_Proto3.v
theories/P_Proto4.v
theories/P_Proto5.v
theories/Prop_Protocol.v
theories/SpecEnum.v
theories/Calls.v
theories/P_Enum.v
theories/P_Parse.v
theories/Prop_Enum.v
theories/P_Decode.v
theories/Prop_Decode.v
theories/World.v
theories/Request.v
theories/Gateway.v
theories/Traces.v
theories/P_Monad.v
theories/P_Request.v
theories/Prop_Request.v
theories/P_Sat.v
theories/Paths.v
theories/P_Paths.v
theories/P_Gw1.v
theories/P_Gw2.v
theories/P_Gw3.v
theories/P_Ph.v
theories/P_Gw4.v
theories/P_Stamp.v
theories/P_Gw5.v
theories/Prop_Gateway.v
theories/Api.v
theories/P_Gw6.v
theories/P_Gw7.v
theories/P_Calm.v
theories/P_Gw8.v
theories/P_Gw9.v
theories/P_Gw10.v
theories/Hostile.v
theories/P_Hostile.v
theories/P_Gw11.v
theories/P_Gw12.v
theories/P_Gw13.v
theories/P_Gw14.v
theories/P_Gw15.v
theories/P_Gw16.v
theories/P_Config.v
theories/Prop_Connect.v
theories/Discovery.v
theories/SpecDiscovery.v
theories/P_Discovery.v
theories/Prop_Discovery.v
theories/Data.v
theories/SpecData.v
theories/P_Data.v
theories/P_Data2.v
theories/P_Data3.v
theories/P_Data4.v
theories/Prop_Data.v
theories/P_Cm.v
theories/P_Cm2.v
theories/P_Cm3.v
theories/Prop_Subscribe.v
theories/Client.v
theories/P_Client.v
theories/P_Client2.v
theories/P_Client3.v
theories/P_Client4.v
theories/P_Client5.v
theories/P_Client6.v
theories/P_Client7.v
theories/P_Client8.v
theories/P_KeepAlive.v
theories/Prop_Client.v
theories/Cli.v
theories/SpecCli.v
theories/P_Cli.v
theories/P_Cli2.v
theories/P_Cli3.v
theories/P_Cli4.v
theories/P_Cli5.v
theories/Prop_Cli.v
theories/Tasks.v
theories/P_Tasks.v
theories/Pool.v
theories/SpecPool.v
theories/P_Pool.v
theories/P_Pool2.v
theories/P_Pool3.v
theories/P_Pool4.v
theories/P_Lock.v
theories/SpecShare.v
theories/P_Share.v
theories/P_Moves.v
theories/SpecKeep.v
theories/SpecBye.v
theories/P_Path.v
theories/P_Disc.v
theories/Prop_Pool.v
theories/Ping.v
theories/Prop_Login.v
theories/Prop_Share.v
theories/P_Tune.v
theories/SpecTerm.v
theories/SpecTime.v
theories/P_Term.v
theories/P_Each.v
theories/P_Timer.v
theories/P_Dead.v
theories/Prop_Term.v
theories/Net.v
theories/SpecNet.v
theories/P_Net1.v
theories/P_Net2.v
theories/P_Net3.v
theories/P_Net4.v
theories/P_Net5.v
theories/P_Net6.v
theories/P_Net7.v
theories/P_Net8.v
theories/Prop_Net.v
theories/Asks.v
theories/Prop_Asks.v
theories/Prop_Keep.v
theories/P_Bye.v
theories/Prop_Bye.v
theories/SpecWhere.v
theories/P_Where.v
theories/Prop_Where.v
theories/Prop_Found.v
theories/Prop_Each.v
theories/Prop_Time.v
theories/SpecTold.v
theories/Prop_Told.v
theories/P_Hand.v
theories/SpecHand.v
theories/Prop_Hand.v
theories/SpecWired.v
theories/Prop_Wired.v
theories/P_Own.v
theories/SpecOwn.v
theories/Prop_Own.v
theories/SpecAnswer.v
theories/P_Answer.v
theories/P_Answer2.v
theories/Prop_Answer.v
theories/SpecPrompt.v
theories/P_Prompt.v
theories/Prop_Prompt.v
theories/SpecSlow.v
theories/P_Slow.v
theories/P_Slow2.v
theories/Prop_Slow.v
theories/P_SlowCli.v
theories/Prop_SlowCli.v
theories/P_Limit.v
theories/Prop_Limit.v
theories/SpecClock.v
theories/P_Clock.v
theories/Prop_Clock.v
theories/SpecId.v
theories/P_Id.v
theories/Prop_Id.v
