(** IE type codes: ie/ie.go:19-296 (const block), one definition per constant, and the
    default grouped-type table: ie/ie_grouped.go:10-98.  Generated from the source text. *)
From Coq Require Import NArith List.
Import ListNotations.
Local Open Scope N_scope.

Definition T_CreatePDR : N := 1. (* ie/ie.go:22 *)
Definition T_PDI : N := 2. (* ie/ie.go:23 *)
Definition T_CreateFAR : N := 3. (* ie/ie.go:24 *)
Definition T_ForwardingParameters : N := 4. (* ie/ie.go:25 *)
Definition T_DuplicatingParameters : N := 5. (* ie/ie.go:26 *)
Definition T_CreateURR : N := 6. (* ie/ie.go:27 *)
Definition T_CreateQER : N := 7. (* ie/ie.go:28 *)
Definition T_CreatedPDR : N := 8. (* ie/ie.go:29 *)
Definition T_UpdatePDR : N := 9. (* ie/ie.go:30 *)
Definition T_UpdateFAR : N := 10. (* ie/ie.go:31 *)
Definition T_UpdateForwardingParameters : N := 11. (* ie/ie.go:32 *)
Definition T_UpdateBARWithinSessionReportResponse : N := 12. (* ie/ie.go:33 *)
Definition T_UpdateURR : N := 13. (* ie/ie.go:34 *)
Definition T_UpdateQER : N := 14. (* ie/ie.go:35 *)
Definition T_RemovePDR : N := 15. (* ie/ie.go:36 *)
Definition T_RemoveFAR : N := 16. (* ie/ie.go:37 *)
Definition T_RemoveURR : N := 17. (* ie/ie.go:38 *)
Definition T_RemoveQER : N := 18. (* ie/ie.go:39 *)
Definition T_Cause : N := 19. (* ie/ie.go:40 *)
Definition T_SourceInterface : N := 20. (* ie/ie.go:41 *)
Definition T_FTEID : N := 21. (* ie/ie.go:42 *)
Definition T_NetworkInstance : N := 22. (* ie/ie.go:43 *)
Definition T_SDFFilter : N := 23. (* ie/ie.go:44 *)
Definition T_ApplicationID : N := 24. (* ie/ie.go:45 *)
Definition T_GateStatus : N := 25. (* ie/ie.go:46 *)
Definition T_MBR : N := 26. (* ie/ie.go:47 *)
Definition T_GBR : N := 27. (* ie/ie.go:48 *)
Definition T_QERCorrelationID : N := 28. (* ie/ie.go:49 *)
Definition T_Precedence : N := 29. (* ie/ie.go:50 *)
Definition T_TransportLevelMarking : N := 30. (* ie/ie.go:51 *)
Definition T_VolumeThreshold : N := 31. (* ie/ie.go:52 *)
Definition T_TimeThreshold : N := 32. (* ie/ie.go:53 *)
Definition T_MonitoringTime : N := 33. (* ie/ie.go:54 *)
Definition T_SubsequentVolumeThreshold : N := 34. (* ie/ie.go:55 *)
Definition T_SubsequentTimeThreshold : N := 35. (* ie/ie.go:56 *)
Definition T_InactivityDetectionTime : N := 36. (* ie/ie.go:57 *)
Definition T_ReportingTriggers : N := 37. (* ie/ie.go:58 *)
Definition T_RedirectInformation : N := 38. (* ie/ie.go:59 *)
Definition T_ReportType : N := 39. (* ie/ie.go:60 *)
Definition T_OffendingIE : N := 40. (* ie/ie.go:61 *)
Definition T_ForwardingPolicy : N := 41. (* ie/ie.go:62 *)
Definition T_DestinationInterface : N := 42. (* ie/ie.go:63 *)
Definition T_UPFunctionFeatures : N := 43. (* ie/ie.go:64 *)
Definition T_ApplyAction : N := 44. (* ie/ie.go:65 *)
Definition T_DownlinkDataServiceInformation : N := 45. (* ie/ie.go:66 *)
Definition T_DownlinkDataNotificationDelay : N := 46. (* ie/ie.go:67 *)
Definition T_DLBufferingDuration : N := 47. (* ie/ie.go:68 *)
Definition T_DLBufferingSuggestedPacketCount : N := 48. (* ie/ie.go:69 *)
Definition T_PFCPSMReqFlags : N := 49. (* ie/ie.go:70 *)
Definition T_PFCPSRRspFlags : N := 50. (* ie/ie.go:71 *)
Definition T_LoadControlInformation : N := 51. (* ie/ie.go:72 *)
Definition T_SequenceNumber : N := 52. (* ie/ie.go:73 *)
Definition T_Metric : N := 53. (* ie/ie.go:74 *)
Definition T_OverloadControlInformation : N := 54. (* ie/ie.go:75 *)
Definition T_Timer : N := 55. (* ie/ie.go:76 *)
Definition T_PDRID : N := 56. (* ie/ie.go:77 *)
Definition T_FSEID : N := 57. (* ie/ie.go:78 *)
Definition T_ApplicationIDsPFDs : N := 58. (* ie/ie.go:79 *)
Definition T_PFDContext : N := 59. (* ie/ie.go:80 *)
Definition T_NodeID : N := 60. (* ie/ie.go:81 *)
Definition T_PFDContents : N := 61. (* ie/ie.go:82 *)
Definition T_MeasurementMethod : N := 62. (* ie/ie.go:83 *)
Definition T_UsageReportTrigger : N := 63. (* ie/ie.go:84 *)
Definition T_MeasurementPeriod : N := 64. (* ie/ie.go:85 *)
Definition T_FQCSID : N := 65. (* ie/ie.go:86 *)
Definition T_VolumeMeasurement : N := 66. (* ie/ie.go:87 *)
Definition T_DurationMeasurement : N := 67. (* ie/ie.go:88 *)
Definition T_ApplicationDetectionInformation : N := 68. (* ie/ie.go:89 *)
Definition T_TimeOfFirstPacket : N := 69. (* ie/ie.go:90 *)
Definition T_TimeOfLastPacket : N := 70. (* ie/ie.go:91 *)
Definition T_QuotaHoldingTime : N := 71. (* ie/ie.go:92 *)
Definition T_DroppedDLTrafficThreshold : N := 72. (* ie/ie.go:93 *)
Definition T_VolumeQuota : N := 73. (* ie/ie.go:94 *)
Definition T_TimeQuota : N := 74. (* ie/ie.go:95 *)
Definition T_StartTime : N := 75. (* ie/ie.go:96 *)
Definition T_EndTime : N := 76. (* ie/ie.go:97 *)
Definition T_QueryURR : N := 77. (* ie/ie.go:98 *)
Definition T_UsageReportWithinSessionModificationResponse : N := 78. (* ie/ie.go:99 *)
Definition T_UsageReportWithinSessionDeletionResponse : N := 79. (* ie/ie.go:100 *)
Definition T_UsageReportWithinSessionReportRequest : N := 80. (* ie/ie.go:101 *)
Definition T_URRID : N := 81. (* ie/ie.go:102 *)
Definition T_LinkedURRID : N := 82. (* ie/ie.go:103 *)
Definition T_DownlinkDataReport : N := 83. (* ie/ie.go:104 *)
Definition T_OuterHeaderCreation : N := 84. (* ie/ie.go:105 *)
Definition T_CreateBAR : N := 85. (* ie/ie.go:106 *)
Definition T_UpdateBARWithinSessionModificationRequest : N := 86. (* ie/ie.go:107 *)
Definition T_RemoveBAR : N := 87. (* ie/ie.go:108 *)
Definition T_BARID : N := 88. (* ie/ie.go:109 *)
Definition T_CPFunctionFeatures : N := 89. (* ie/ie.go:110 *)
Definition T_UsageInformation : N := 90. (* ie/ie.go:111 *)
Definition T_ApplicationInstanceID : N := 91. (* ie/ie.go:112 *)
Definition T_FlowInformation : N := 92. (* ie/ie.go:113 *)
Definition T_UEIPAddress : N := 93. (* ie/ie.go:114 *)
Definition T_PacketRate : N := 94. (* ie/ie.go:115 *)
Definition T_OuterHeaderRemoval : N := 95. (* ie/ie.go:116 *)
Definition T_RecoveryTimeStamp : N := 96. (* ie/ie.go:117 *)
Definition T_DLFlowLevelMarking : N := 97. (* ie/ie.go:118 *)
Definition T_HeaderEnrichment : N := 98. (* ie/ie.go:119 *)
Definition T_ErrorIndicationReport : N := 99. (* ie/ie.go:120 *)
Definition T_MeasurementInformation : N := 100. (* ie/ie.go:121 *)
Definition T_NodeReportType : N := 101. (* ie/ie.go:122 *)
Definition T_UserPlanePathFailureReport : N := 102. (* ie/ie.go:123 *)
Definition T_RemoteGTPUPeer : N := 103. (* ie/ie.go:124 *)
Definition T_URSEQN : N := 104. (* ie/ie.go:125 *)
Definition T_UpdateDuplicatingParameters : N := 105. (* ie/ie.go:126 *)
Definition T_ActivatePredefinedRules : N := 106. (* ie/ie.go:127 *)
Definition T_DeactivatePredefinedRules : N := 107. (* ie/ie.go:128 *)
Definition T_FARID : N := 108. (* ie/ie.go:129 *)
Definition T_QERID : N := 109. (* ie/ie.go:130 *)
Definition T_OCIFlags : N := 110. (* ie/ie.go:131 *)
Definition T_PFCPAssociationReleaseRequest : N := 111. (* ie/ie.go:132 *)
Definition T_GracefulReleasePeriod : N := 112. (* ie/ie.go:133 *)
Definition T_PDNType : N := 113. (* ie/ie.go:134 *)
Definition T_FailedRuleID : N := 114. (* ie/ie.go:135 *)
Definition T_TimeQuotaMechanism : N := 115. (* ie/ie.go:136 *)
Definition T_UserPlaneIPResourceInformation : N := 116. (* ie/ie.go:137 *)
Definition T_UserPlaneInactivityTimer : N := 117. (* ie/ie.go:138 *)
Definition T_AggregatedURRs : N := 118. (* ie/ie.go:139 *)
Definition T_Multiplier : N := 119. (* ie/ie.go:140 *)
Definition T_AggregatedURRID : N := 120. (* ie/ie.go:141 *)
Definition T_SubsequentVolumeQuota : N := 121. (* ie/ie.go:142 *)
Definition T_SubsequentTimeQuota : N := 122. (* ie/ie.go:143 *)
Definition T_RQI : N := 123. (* ie/ie.go:144 *)
Definition T_QFI : N := 124. (* ie/ie.go:145 *)
Definition T_QueryURRReference : N := 125. (* ie/ie.go:146 *)
Definition T_AdditionalUsageReportsInformation : N := 126. (* ie/ie.go:147 *)
Definition T_CreateTrafficEndpoint : N := 127. (* ie/ie.go:148 *)
Definition T_CreatedTrafficEndpoint : N := 128. (* ie/ie.go:149 *)
Definition T_UpdateTrafficEndpoint : N := 129. (* ie/ie.go:150 *)
Definition T_RemoveTrafficEndpoint : N := 130. (* ie/ie.go:151 *)
Definition T_TrafficEndpointID : N := 131. (* ie/ie.go:152 *)
Definition T_EthernetPacketFilter : N := 132. (* ie/ie.go:153 *)
Definition T_MACAddress : N := 133. (* ie/ie.go:154 *)
Definition T_CTAG : N := 134. (* ie/ie.go:155 *)
Definition T_STAG : N := 135. (* ie/ie.go:156 *)
Definition T_Ethertype : N := 136. (* ie/ie.go:157 *)
Definition T_Proxying : N := 137. (* ie/ie.go:158 *)
Definition T_EthernetFilterID : N := 138. (* ie/ie.go:159 *)
Definition T_EthernetFilterProperties : N := 139. (* ie/ie.go:160 *)
Definition T_SuggestedBufferingPacketsCount : N := 140. (* ie/ie.go:161 *)
Definition T_UserID : N := 141. (* ie/ie.go:162 *)
Definition T_EthernetPDUSessionInformation : N := 142. (* ie/ie.go:163 *)
Definition T_EthernetTrafficInformation : N := 143. (* ie/ie.go:164 *)
Definition T_MACAddressesDetected : N := 144. (* ie/ie.go:165 *)
Definition T_MACAddressesRemoved : N := 145. (* ie/ie.go:166 *)
Definition T_EthernetInactivityTimer : N := 146. (* ie/ie.go:167 *)
Definition T_AdditionalMonitoringTime : N := 147. (* ie/ie.go:168 *)
Definition T_EventQuota : N := 148. (* ie/ie.go:169 *)
Definition T_EventThreshold : N := 149. (* ie/ie.go:170 *)
Definition T_SubsequentEventQuota : N := 150. (* ie/ie.go:171 *)
Definition T_SubsequentEventThreshold : N := 151. (* ie/ie.go:172 *)
Definition T_TraceInformation : N := 152. (* ie/ie.go:173 *)
Definition T_FramedRoute : N := 153. (* ie/ie.go:174 *)
Definition T_FramedRouting : N := 154. (* ie/ie.go:175 *)
Definition T_FramedIPv6Route : N := 155. (* ie/ie.go:176 *)
Definition T_EventTimeStamp : N := 156. (* ie/ie.go:177 *)
Definition T_AveragingWindow : N := 157. (* ie/ie.go:178 *)
Definition T_PagingPolicyIndicator : N := 158. (* ie/ie.go:179 *)
Definition T_APNDNN : N := 159. (* ie/ie.go:180 *)
Definition T_TGPPInterfaceType : N := 160. (* ie/ie.go:181 *)
Definition T_PFCPSRReqFlags : N := 161. (* ie/ie.go:182 *)
Definition T_PFCPAUReqFlags : N := 162. (* ie/ie.go:183 *)
Definition T_ActivationTime : N := 163. (* ie/ie.go:184 *)
Definition T_DeactivationTime : N := 164. (* ie/ie.go:185 *)
Definition T_CreateMAR : N := 165. (* ie/ie.go:186 *)
Definition T_TGPPAccessForwardingActionInformation : N := 166. (* ie/ie.go:187 *)
Definition T_NonTGPPAccessForwardingActionInformation : N := 167. (* ie/ie.go:188 *)
Definition T_RemoveMAR : N := 168. (* ie/ie.go:189 *)
Definition T_UpdateMAR : N := 169. (* ie/ie.go:190 *)
Definition T_MARID : N := 170. (* ie/ie.go:191 *)
Definition T_SteeringFunctionality : N := 171. (* ie/ie.go:192 *)
Definition T_SteeringMode : N := 172. (* ie/ie.go:193 *)
Definition T_Weight : N := 173. (* ie/ie.go:194 *)
Definition T_Priority : N := 174. (* ie/ie.go:195 *)
Definition T_UpdateTGPPAccessForwardingActionInformation : N := 175. (* ie/ie.go:196 *)
Definition T_UpdateNonTGPPAccessForwardingActionInformation : N := 176. (* ie/ie.go:197 *)
Definition T_UEIPAddressPoolIdentity : N := 177. (* ie/ie.go:198 *)
Definition T_AlternativeSMFIPAddress : N := 178. (* ie/ie.go:199 *)
Definition T_PacketReplicationAndDetectionCarryOnInformation : N := 179. (* ie/ie.go:200 *)
Definition T_SMFSetID : N := 180. (* ie/ie.go:201 *)
Definition T_QuotaValidityTime : N := 181. (* ie/ie.go:202 *)
Definition T_NumberOfReports : N := 182. (* ie/ie.go:203 *)
Definition T_PFCPSessionRetentionInformation : N := 183. (* ie/ie.go:204 *)
Definition T_PFCPASRspFlags : N := 184. (* ie/ie.go:205 *)
Definition T_CPPFCPEntityIPAddress : N := 185. (* ie/ie.go:206 *)
Definition T_PFCPSEReqFlags : N := 186. (* ie/ie.go:207 *)
Definition T_UserPlanePathRecoveryReport : N := 187. (* ie/ie.go:208 *)
Definition T_IPMulticastAddressingInfo : N := 188. (* ie/ie.go:209 *)
Definition T_JoinIPMulticastInformationWithinUsageReport : N := 189. (* ie/ie.go:210 *)
Definition T_LeaveIPMulticastInformationWithinUsageReport : N := 190. (* ie/ie.go:211 *)
Definition T_IPMulticastAddress : N := 191. (* ie/ie.go:212 *)
Definition T_SourceIPAddress : N := 192. (* ie/ie.go:213 *)
Definition T_PacketRateStatus : N := 193. (* ie/ie.go:214 *)
Definition T_CreateBridgeInfoForTSC : N := 194. (* ie/ie.go:215 *)
Definition T_CreatedBridgeInfoForTSC : N := 195. (* ie/ie.go:216 *)
Definition T_DSTTPortNumber : N := 196. (* ie/ie.go:217 *)
Definition T_NWTTPortNumber : N := 197. (* ie/ie.go:218 *)
Definition T_TSNBridgeID : N := 198. (* ie/ie.go:219 *)
Definition T_TSCManagementInformationWithinSessionModificationRequest : N := 199. (* ie/ie.go:220 *)
Definition T_TSCManagementInformationWithinSessionModificationResponse : N := 200. (* ie/ie.go:221 *)
Definition T_TSCManagementInformationWithinSessionReportRequest : N := 201. (* ie/ie.go:222 *)
Definition T_PortManagementInformationForTSCWithinSessionModificationRequest : N := 199. (* ie/ie.go:223 *)
Definition T_PortManagementInformationForTSCWithinSessionModificationResponse : N := 200. (* ie/ie.go:224 *)
Definition T_PortManagementInformationForTSCWithinSessionReportRequest : N := 201. (* ie/ie.go:225 *)
Definition T_PortManagementInformationContainer : N := 202. (* ie/ie.go:226 *)
Definition T_ClockDriftControlInformation : N := 203. (* ie/ie.go:227 *)
Definition T_RequestedClockDriftInformation : N := 204. (* ie/ie.go:228 *)
Definition T_ClockDriftReport : N := 205. (* ie/ie.go:229 *)
Definition T_TSNTimeDomainNumber : N := 206. (* ie/ie.go:230 *)
Definition T_TimeOffsetThreshold : N := 207. (* ie/ie.go:231 *)
Definition T_CumulativeRateRatioThreshold : N := 208. (* ie/ie.go:232 *)
Definition T_TimeOffsetMeasurement : N := 209. (* ie/ie.go:233 *)
Definition T_CumulativeRateRatioMeasurement : N := 210. (* ie/ie.go:234 *)
Definition T_RemoveSRR : N := 211. (* ie/ie.go:235 *)
Definition T_CreateSRR : N := 212. (* ie/ie.go:236 *)
Definition T_UpdateSRR : N := 213. (* ie/ie.go:237 *)
Definition T_SessionReport : N := 214. (* ie/ie.go:238 *)
Definition T_SRRID : N := 215. (* ie/ie.go:239 *)
Definition T_AccessAvailabilityControlInformation : N := 216. (* ie/ie.go:240 *)
Definition T_RequestedAccessAvailabilityInformation : N := 217. (* ie/ie.go:241 *)
Definition T_AccessAvailabilityReport : N := 218. (* ie/ie.go:242 *)
Definition T_AccessAvailabilityInformation : N := 219. (* ie/ie.go:243 *)
Definition T_ProvideATSSSControlInformation : N := 220. (* ie/ie.go:244 *)
Definition T_ATSSSControlParameters : N := 221. (* ie/ie.go:245 *)
Definition T_MPTCPControlInformation : N := 222. (* ie/ie.go:246 *)
Definition T_ATSSSLLControlInformation : N := 223. (* ie/ie.go:247 *)
Definition T_PMFControlInformation : N := 224. (* ie/ie.go:248 *)
Definition T_MPTCPParameters : N := 225. (* ie/ie.go:249 *)
Definition T_ATSSSLLParameters : N := 226. (* ie/ie.go:250 *)
Definition T_PMFParameters : N := 227. (* ie/ie.go:251 *)
Definition T_MPTCPAddressInformation : N := 228. (* ie/ie.go:252 *)
Definition T_UELinkSpecificIPAddress : N := 229. (* ie/ie.go:253 *)
Definition T_PMFAddressInformation : N := 230. (* ie/ie.go:254 *)
Definition T_ATSSSLLInformation : N := 231. (* ie/ie.go:255 *)
Definition T_DataNetworkAccessIdentifier : N := 232. (* ie/ie.go:256 *)
Definition T_UEIPAddressPoolInformation : N := 233. (* ie/ie.go:257 *)
Definition T_AveragePacketDelay : N := 234. (* ie/ie.go:258 *)
Definition T_MinimumPacketDelay : N := 235. (* ie/ie.go:259 *)
Definition T_MaximumPacketDelay : N := 236. (* ie/ie.go:260 *)
Definition T_QoSReportTrigger : N := 237. (* ie/ie.go:261 *)
Definition T_GTPUPathQoSControlInformation : N := 238. (* ie/ie.go:262 *)
Definition T_GTPUPathQoSReport : N := 239. (* ie/ie.go:263 *)
Definition T_QoSInformationInGTPUPathQoSReport : N := 240. (* ie/ie.go:264 *)
Definition T_GTPUPathInterfaceType : N := 241. (* ie/ie.go:265 *)
Definition T_QoSMonitoringPerQoSFlowControlInformation : N := 242. (* ie/ie.go:266 *)
Definition T_RequestedQoSMonitoring : N := 243. (* ie/ie.go:267 *)
Definition T_ReportingFrequency : N := 244. (* ie/ie.go:268 *)
Definition T_PacketDelayThresholds : N := 245. (* ie/ie.go:269 *)
Definition T_MinimumWaitTime : N := 246. (* ie/ie.go:270 *)
Definition T_QoSMonitoringReport : N := 247. (* ie/ie.go:271 *)
Definition T_QoSMonitoringMeasurement : N := 248. (* ie/ie.go:272 *)
Definition T_MTEDTControlInformation : N := 249. (* ie/ie.go:273 *)
Definition T_DLDataPacketsSize : N := 250. (* ie/ie.go:274 *)
Definition T_QERControlIndications : N := 251. (* ie/ie.go:275 *)
Definition T_PacketRateStatusReport : N := 252. (* ie/ie.go:276 *)
Definition T_NFInstanceID : N := 253. (* ie/ie.go:277 *)
Definition T_EthernetContextInformation : N := 254. (* ie/ie.go:278 *)
Definition T_RedundantTransmissionParameters : N := 255. (* ie/ie.go:279 *)
Definition T_UpdatedPDR : N := 256. (* ie/ie.go:280 *)
Definition T_SNSSAI : N := 257. (* ie/ie.go:281 *)
Definition T_IPVersion : N := 258. (* ie/ie.go:282 *)
Definition T_PFCPASReqFlags : N := 259. (* ie/ie.go:283 *)
Definition T_DataStatus : N := 260. (* ie/ie.go:284 *)
Definition T_ProvideRDSConfigurationInformation : N := 261. (* ie/ie.go:285 *)
Definition T_RDSConfigurationInformation : N := 262. (* ie/ie.go:286 *)
Definition T_QueryPacketRateStatusWithinSessionModificationRequest : N := 263. (* ie/ie.go:287 *)
Definition T_PacketRateStatusReportWithinSessionModificationResponse : N := 264. (* ie/ie.go:288 *)
Definition T_MPTCPApplicableIndication : N := 265. (* ie/ie.go:289 *)
Definition T_BridgeManagementInformationContainer : N := 266. (* ie/ie.go:290 *)
Definition T_UEIPAddressUsageInformation : N := 267. (* ie/ie.go:291 *)
Definition T_NumberOfUEIPAddresses : N := 268. (* ie/ie.go:292 *)
Definition T_ValidityTimer : N := 269. (* ie/ie.go:293 *)
Definition T_RedundantTransmissionForwardingParameters : N := 270. (* ie/ie.go:294 *)
Definition T_TransportDelayReporting : N := 271. (* ie/ie.go:295 *)

(** defaultGroupedIEMap, ie/ie_grouped.go:11-97 *)
Definition grouped_list : list N :=
  [T_CreatePDR;
   T_PDI;
   T_CreateFAR;
   T_ForwardingParameters;
   T_DuplicatingParameters;
   T_CreateURR;
   T_CreateQER;
   T_CreatedPDR;
   T_UpdatePDR;
   T_UpdateFAR;
   T_UpdateForwardingParameters;
   T_UpdateBARWithinSessionReportResponse;
   T_UpdateURR;
   T_UpdateQER;
   T_RemovePDR;
   T_RemoveFAR;
   T_RemoveURR;
   T_RemoveQER;
   T_LoadControlInformation;
   T_OverloadControlInformation;
   T_ApplicationIDsPFDs;
   T_PFDContext;
   T_ApplicationDetectionInformation;
   T_QueryURR;
   T_UsageReportWithinSessionModificationResponse;
   T_UsageReportWithinSessionDeletionResponse;
   T_UsageReportWithinSessionReportRequest;
   T_DownlinkDataReport;
   T_CreateBAR;
   T_UpdateBARWithinSessionModificationRequest;
   T_RemoveBAR;
   T_ErrorIndicationReport;
   T_UserPlanePathFailureReport;
   T_UpdateDuplicatingParameters;
   T_AggregatedURRs;
   T_CreateTrafficEndpoint;
   T_CreatedTrafficEndpoint;
   T_UpdateTrafficEndpoint;
   T_RemoveTrafficEndpoint;
   T_EthernetPacketFilter;
   T_EthernetTrafficInformation;
   T_AdditionalMonitoringTime;
   T_CreateMAR;
   T_TGPPAccessForwardingActionInformation;
   T_NonTGPPAccessForwardingActionInformation;
   T_RemoveMAR;
   T_UpdateMAR;
   T_UpdateTGPPAccessForwardingActionInformation;
   T_UpdateNonTGPPAccessForwardingActionInformation;
   T_PFCPSessionRetentionInformation;
   T_UserPlanePathRecoveryReport;
   T_IPMulticastAddressingInfo;
   T_JoinIPMulticastInformationWithinUsageReport;
   T_LeaveIPMulticastInformationWithinUsageReport;
   T_CreatedBridgeInfoForTSC;
   T_TSCManagementInformationWithinSessionModificationRequest;
   T_TSCManagementInformationWithinSessionModificationResponse;
   T_TSCManagementInformationWithinSessionReportRequest;
   T_ClockDriftControlInformation;
   T_ClockDriftReport;
   T_RemoveSRR;
   T_CreateSRR;
   T_UpdateSRR;
   T_SessionReport;
   T_AccessAvailabilityControlInformation;
   T_AccessAvailabilityReport;
   T_ProvideATSSSControlInformation;
   T_ATSSSControlParameters;
   T_MPTCPParameters;
   T_ATSSSLLParameters;
   T_PMFParameters;
   T_UEIPAddressPoolInformation;
   T_GTPUPathQoSControlInformation;
   T_GTPUPathQoSReport;
   T_QoSInformationInGTPUPathQoSReport;
   T_QoSMonitoringPerQoSFlowControlInformation;
   T_QoSMonitoringReport;
   T_PacketRateStatusReport;
   T_EthernetContextInformation;
   T_RedundantTransmissionParameters;
   T_UpdatedPDR;
   T_ProvideRDSConfigurationInformation;
   T_QueryPacketRateStatusWithinSessionModificationRequest;
   T_PacketRateStatusReportWithinSessionModificationResponse;
   T_UEIPAddressUsageInformation;
   T_RedundantTransmissionForwardingParameters;
   T_TransportDelayReporting].

(** The default isGroupedFun: map membership, ie/ie_grouped.go:99-104. *)
Definition default_grouped (t : N) : bool := existsb (N.eqb t) grouped_list.
