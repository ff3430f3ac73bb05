-Q theories Verif
theories/Base.v
theories/Const.v
theories/Types.v
theories/State.v
theories/Events.v
theories/Atomic.v
theories/Server.v
theories/Lib.v
theories/SearchProofs.v
theories/Shape.v
theories/Inv.v
theories/Reach.v
theories/Spec.v
theories/Frame.v
theories/Effects.v
theories/Out.v
theories/DataFrame.v
theories/WRel.v
theories/ModInv.v
theories/IdInv.v
theories/Demo.v
theories/Prop_Tags.v
theories/Prop_Data.v
theories/Prop_Override.v
theories/Prop_Modules.v
theories/EvSpec.v
theories/EvLoops.v
theories/EvSync.v
theories/Prop_Events.v
theories/QueueFrame.v
theories/Prop_Queue.v
theories/Prop_Maps.v
theories/Prop_Groups.v
theories/Prop_Atomic.v
theories/TypeFrame.v
theories/TypesProofs.v
theories/ClientTypes.v
theories/ClientTypesProofs.v
theories/Prop_Types.v
theories/Buffer.v
theories/Wire.v
theories/BufProofs.v
theories/Prop_Wire.v
theories/Conv.v
theories/ClientMsg.v
theories/Prop_Encode.v
theories/ClientData.v
theories/Prop_ClientData.v
theories/Cache.v
theories/CacheProofs.v
theories/Prop_Cache.v
theories/Text.v
theories/Prop_Text.v
theories/Path.v
theories/Prop_Path.v
theories/ClientRx.v
theories/Prop_ClientRx.v
theories/Crc.v
theories/Prop_Crc.v
theories/Modbus.v
theories/Prop_Modbus.v
theories/Prop_ModbusWrite.v
theories/Prop_ModbusSafe.v
theories/Prop_ModbusMaster.v
theories/Prop_ModbusPoll.v
theories/Prop_Retain.v
theories/Master.v
theories/MasterProofs.v
theories/Prop_Master.v
theories/Hist.v
theories/Prop_Hist.v
theories/Script.v
theories/Prop_Script.v
theories/LuaConv.v
theories/LuaConvProofs.v
theories/Prop_LuaConv.v
theories/Plctag.v
theories/Prop_Plctag.v
theories/Prop_PlcQueue.v
theories/Mqtt.v
theories/MqttProofs.v
theories/Prop_MqttTopic.v
theories/Prop_MqttLoop.v
theories/Prop_Answer.v
theories/Prop_Deliver.v
theories/Prop_MqttData.v
theories/Safe.v
theories/SafeLoops.v
theories/SafeInv.v
theories/SafeWrite.v
theories/SafeOps.v
theories/SafeTags.v
theories/SafeConn.v
theories/SafeStep.v
theories/Prop_Safe.v
theories/Opt.v
theories/OptProofs.v
theories/Prop_Opt.v
theories/Prop_ServerOpt.v
theories/Concur.v
theories/Prop_Concur.v
theories/MbPort.v
theories/MbPortProofs.v
theories/Prop_MbPort.v
theories/Prop_MbScan.v
theories/MbStart.v
theories/Prop_MbStart.v
theories/Prop_MbTags.v
theories/ClientOvr.v
theories/Prop_ClientOvr.v
theories/LuaApi.v
theories/LuaApiProofs.v
theories/Prop_LuaApi.v
theories/ScriptRun.v
theories/Prop_ScriptRun.v
theories/Util.v
theories/Prop_Util.v
theories/Log.v
theories/Prop_Log.v
theories/CdtNew.v
theories/Prop_CdtNew.v
theories/LuaEvent.v
theories/Prop_LuaEvent.v
theories/ClientMap.v
theories/Prop_ClientMap.v
theories/Daxc.v
theories/Prop_Daxc.v
theories/Prop_DaxcCmd.v
theories/DaxcTags.v
theories/Prop_DaxcTags.v
theories/DaxcEvent.v
theories/Prop_DaxcEvent.v
theories/DaxcRead.v
theories/Prop_DaxcRead.v
theories/Prop_DaxcType.v
theories/CdtIter.v
theories/Prop_CdtIter.v
theories/Prop_DaxcCompound.v
theories/Fqn.v
theories/Prop_Fqn.v
theories/MstrConf.v
theories/Prop_MstrConf.v
theories/DhlFile.v
theories/Prop_DhlFile.v
theories/Daemon.v
theories/Prop_Daemon.v
theories/StartDelay.v
theories/Prop_StartDelay.v
theories/Assumptions.v
