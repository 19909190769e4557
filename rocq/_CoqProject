-Q theories Verif
theories/Base.v
theories/IETypes.v
theories/IE.v
theories/Spec.v
theories/IEProofs.v
theories/IEProofs2.v
theories/IEWf.v
theories/IEWitness.v
theories/IEProps.v
theories/PropsIE.v
theories/Bits.v
theories/Header.v
theories/HeaderSpec.v
theories/HeaderProofs.v
theories/PropsHeader.v
theories/Message.v
theories/MsgTables.v
theories/MsgSpec.v
theories/MsgProofs.v
theories/MsgProofs2.v
theories/IENames.v
theories/MsgNames.v
theories/MsgProps.v
theories/MsgProps2.v
theories/PropsMsg.v
theories/Utils.v
theories/UtilsProofs.v
theories/PropsUtils.v
theories/Codec.v
theories/Fields1.v
theories/FieldsSpec1.v
theories/FieldsProofs1.v
theories/FieldsProofs1b.v
theories/FieldsProofs1c.v
theories/FieldsProofs1d.v
theories/PropsFields1.v
theories/Time.v
theories/TimeProofs.v
theories/PropsTime.v
theories/Fields2.v
theories/FieldsSpec2.v
theories/FieldsProofs2.v
theories/PropsFields2.v
theories/Codec2.v
theories/Fields3.v
theories/FieldsSpec3.v
theories/FieldsProofs3.v
theories/FieldsProofs3b.v
theories/FieldsProofs3c.v
theories/FieldsProofs3d.v
theories/PropsFields3.v
theories/Fields4.v
theories/FieldsSpec4.v
theories/FieldsProofs4.v
theories/FieldsProofs4b.v
theories/FieldsProofs4c.v
theories/FieldsProofs4d.v
theories/PropsFields4.v
theories/Access.v
theories/AccTable.v
theories/AccRun.v
theories/AccProofs.v
theories/AccProofs2.v
theories/AccProofs3.v
theories/AccProofs4.v
theories/AccProofs5.v
theories/AccProofs6.v
theories/PropsAcc.v
theories/Flags.v
theories/FlagTable.v
theories/FlagRun.v
theories/FlagSpec.v
theories/FlagProofs.v
theories/FlagProofs2.v
theories/FlagProofs3.v
theories/PropsFlag.v
theories/New.v
theories/NewTable.v
theories/NewRun.v
theories/NewProofs.v
theories/NewProofs2.v
theories/NewProofs3.v
theories/NewProofs4.v
theories/NewProofs5.v
theories/NewProofs6.v
theories/AccNames.v
theories/PropsNew.v
theories/Logger.v
theories/LoggerProofs.v
theories/Registry.v
theories/RegistryProofs.v
theories/RegistryProofs2.v
theories/PropsLog.v
theories/PropsReg.v
theories/Alias.v
theories/AliasProofs.v
theories/AliasProofs2.v
theories/PropsAlias.v
theories/Members.v
theories/MemberProofs.v
theories/PropsMember.v
theories/Formats.v
theories/FormatProofs.v
theories/PropsFormat.v
theories/Construct.v
theories/ConstructProofs.v
theories/PropsConstruct.v
theories/TypeString.v
theories/PropsName.v
theories/Heartbeat.v
theories/HeartbeatProofs.v
theories/PropsHeartbeat.v
theories/Reuse.v
theories/ReuseSpec.v
theories/ReuseProofs.v
theories/ReuseProofs2.v
theories/ReuseProofs3.v
theories/PropsReuse.v
theories/Cost.v
theories/CostProofs.v
theories/PropsCost.v
theories/Share.v
theories/ShareProofs.v
theories/ShareProofs2.v
theories/PropsShare.v
theories/NetText.v
theories/NetTextProofs.v
theories/NetTextProofs2.v
theories/PropsText.v
theories/AnySpec.v
theories/AnyProofs.v
theories/PropsAny.v
theories/BufferProofs.v
theories/BufferProofs2.v
theories/PropsBuffer.v
theories/DeliverProofs.v
theories/DeliverProofs2.v
theories/PropsDeliver.v
theories/Failed.v
theories/FailedProofs.v
theories/FailedProofs2.v
theories/PropsFailed.v
theories/HeaderText.v
theories/HeaderTextProofs.v
theories/PropsHeaderText.v
theories/ShortProofs.v
theories/PropsShort.v
theories/Seen.v
theories/SeenProofs.v
theories/SeenMem.v
theories/SeenProofs2.v
theories/PropsSeen.v
theories/Spare.v
theories/SpareProofs.v
theories/SpareProofs2.v
theories/SpareProofs3.v
theories/SpareProofs4.v
theories/PropsSpare.v
theories/Over.v
theories/OverProofs.v
theories/OverProofs2.v
theories/PropsOver.v
theories/Errors.v
theories/ErrorsProofs.v
theories/ErrorsProofs2.v
theories/ErrorsProofs3.v
theories/PropsErrors.v
theories/Go.v
theories/GoFields.v
theories/GoRep.v
theories/GoProofs.v
theories/GoUn1.v
theories/GoUn2.v
theories/GoUn3.v
theories/GoUn4.v
theories/GoLen.v
theories/GoTo.v
theories/GoTo1.v
theories/GoTo2.v
theories/GoTo3.v
theories/GoMeta.v
theories/PropsGo.v
theories/GoType.v
theories/GoShape.v
theories/PropsGoFail.v
theories/LongerProofs.v
theories/PropsLonger.v
theories/PropsOrder.v
theories/PropsRelay.v
theories/SameProofs.v
theories/PropsSame.v
theories/GoOver.v
theories/GoWithin.v
theories/PropsGoOver.v
theories/GoBound.v
theories/PropsGoBound.v
theories/GoFront.v
theories/PropsGoFront.v
