-Q theories Verif
theories/Base.v
theories/Wire.v
theories/WireSpec.v
theories/WireProofs.v
theories/WireProofs2.v
theories/WireProofs3.v
theories/P_Wire.v
theories/Ring.v
theories/RingProofs.v
theories/P_Ring.v
theories/Framing.v
theories/FramingProofs.v
theories/P_Framing.v
theories/BulkWriter.v
theories/BulkWriterProofs.v
theories/P_BulkWriter.v
theories/Events.v
theories/EventsProofs.v
theories/P_Events.v
theories/AList.v
theories/PropCache.v
theories/PropCacheProofs.v
theories/P_PropCache.v
theories/Factory.v
theories/FactoryProofs.v
theories/P_Factory.v
theories/Responder.v
theories/RSpec.v
theories/RLogic.v
theories/ROne.v
theories/ROne2.v
theories/RGate.v
theories/RData.v
theories/RInv.v
theories/RExec.v
theories/RSession.v
theories/RDemo.v
theories/P_Responder.v
theories/RRead.v
theories/RFail.v
theories/P_Read.v
theories/RSend.v
theories/RSend2.v
theories/P_Send.v
theories/REdit.v
theories/RMisc.v
theories/P_Misc.v
theories/RAdv.v
theories/P_Adv.v
theories/FS.v
theories/FSPath.v
theories/FSTree.v
theories/FSLogic.v
theories/FSAdd.v
theories/FSAdd2.v
theories/FSDel.v
theories/FSSub.v
theories/FSMove.v
theories/FSMove2.v
theories/FSMove3.v
theories/FSEv.v
theories/FSData.v
theories/FSData2.v
theories/FSList.v
theories/FSFrame.v
theories/FSCopy.v
theories/FSCopy2.v
theories/FSSpec.v
theories/FSReach.v
theories/FSDemo.v
theories/FSView.v
theories/P_FS.v
theories/P_FS2.v
theories/P_FS3.v
theories/FSKeep.v
theories/FSConf.v
theories/FSExcl.v
theories/FSNote.v
theories/FSNote2.v
theories/P_FS4.v
theories/DateTime.v
theories/DateTimeProofs.v
theories/P_DateTime.v
theories/Labels.v
theories/P_Labels.v
theories/Thumbs.v
theories/P_Thumbs.v
theories/FreeSpace.v
theories/P_FreeSpace.v
theories/Pod.v
theories/P_Pod.v
theories/FSNamed.v
theories/P_Formats.v
theories/P_PodDefault.v
theories/RColl.v
theories/RPropList.v
theories/P_PropList.v
theories/P_DevProp.v
theories/Persist.v
theories/PersistProofs.v
theories/P_Persist.v
theories/FSIds.v
theories/Refs.v
theories/RefsProofs.v
theories/P_Refs.v
theories/P_RefsReq.v
theories/RGetList.v
theories/P_GetList.v
theories/Coherence.v
theories/FSProps.v
theories/P_FSProps.v
theories/FSPlugin.v
theories/P_Coherence.v
theories/P_FS5.v
theories/P_FS6.v
theories/Control.v
theories/ControlProofs.v
theories/P_Control.v
theories/RingStop.v
theories/P_RingStop.v
theories/DevInfo.v
theories/ExtFormat.v
theories/DevInfoDemo.v
theories/DevInfoProofs.v
theories/P_DevInfo.v
theories/Inotify.v
theories/P_Inotify.v
theories/ROps.v
theories/P_Ops.v
theories/FSAnn.v
theories/FSAnn2.v
theories/FSVals.v
theories/FSVals2.v
theories/P_CohFS.v
theories/P_Ann.v
theories/RExt.v
theories/Device.v
theories/DeviceProofs.v
theories/DeviceRead.v
theories/DeviceSend.v
theories/P_SendInfo.v
theories/DeviceInfo.v
theories/P_Device.v
theories/DeviceOps.v
theories/P_DeviceOps.v
theories/REdit2.v
theories/DeviceEdit.v
theories/P_Edit.v
theories/FSTerm.v
theories/FSTerm2.v
theories/FSTerm3.v
theories/FSFuel.v
theories/FSTerm4.v
theories/FSTerm5.v
theories/RSetProp.v
theories/FSLoop.v
theories/P_Term.v
theories/P_Enough.v
theories/DeviceSend2.v
theories/P_DevList.v
theories/P_SetProp.v
theories/RThumb.v
theories/P_Thumb.v
theories/RSendList.v
theories/P_SendList.v
theories/Usb.v
theories/UsbProofs.v
theories/UsbReset.v
theories/UsbWhole.v
theories/UsbSend.v
theories/P_Usb.v
theories/UsbFail.v
theories/UsbBig.v
theories/P_UsbBig.v
theories/P_UsbEdit.v
theories/UsbSame.v
theories/P_UsbBigDev.v
theories/P_UsbFail.v
theories/FSDelAll.v
theories/P_DelAll.v
theories/P_DelDevice.v
theories/RReadFail.v
theories/P_ReadFail.v
theories/P_Lists.v
theories/P_GetValue.v
theories/FSWatch.v
theories/FSWatch2.v
theories/FSFirm.v
theories/FSWatch3.v
theories/FSWatch4.v
theories/FSWatch5.v
theories/P_Watch.v
