-Q theories Verif
theories/Base.v
theories/TimeSpec.v
theories/TimeModel.v
theories/TimeProof.v
theories/TimeProps.v
theories/TsdSpec.v
theories/TsdModel.v
theories/TsdProof.v
theories/TsdProps.v
theories/ListLib.v
theories/QLib.v
theories/FilterSpec.v
theories/FilterModel.v
theories/FilterProof.v
theories/FilterProps.v
theories/StatsSpec.v
theories/StatsModel.v
theories/StatsProof.v
theories/StatsProps.v
theories/BicSpec.v
theories/BicModel.v
theories/BicProof.v
theories/BicProps.v
theories/HtSpec.v
theories/HtModel.v
theories/HtProof.v
theories/HtProps.v
theories/DbSpec.v
theories/DbModel.v
theories/DbProof.v
theories/DbProps.v
theories/StrSpec.v
theories/StrModel.v
theories/StrProof.v
theories/StrProps.v
theories/TokSpec.v
theories/TokModel.v
theories/TokProof.v
theories/TokProps.v
theories/CfgSpec.v
theories/CfgModel.v
theories/CfgProof.v
theories/CfgProps.v
theories/FeedSpec.v
theories/FeedModel.v
theories/FeedProof.v
theories/FeedProps.v
theories/BmcSpec.v
theories/BmcModel.v
theories/BmcProof.v
theories/BmcProps.v
theories/SrvSpec.v
theories/SrvModel.v
theories/SrvProof.v
theories/SrvProps.v
theories/EngSpec.v
theories/EngModel.v
theories/EngProof.v
theories/EngProps.v
theories/LeapSpec.v
theories/LeapModel.v
theories/LeapProof.v
theories/LeapProps.v
theories/FltSpec.v
theories/FltModel.v
theories/FltProof.v
theories/FltProps.v
theories/CluSpec.v
theories/CluModel.v
theories/CluProof.v
theories/CluProps.v
theories/AclSpec.v
theories/AclModel.v
theories/AclProof.v
theories/AclProps.v
theories/TmrSpec.v
theories/TmrModel.v
theories/TmrProof.v
theories/TmrProps.v
theories/MsgSpec.v
theories/MsgModel.v
theories/MsgProof.v
theories/MsgProof2.v
theories/MsgProps.v
theories/TlvSpec.v
theories/TlvModel.v
theories/TlvProof.v
theories/TlvProof2.v
theories/TlvProof3.v
theories/TlvProps.v
theories/PrtSpec.v
theories/PrtModel.v
theories/PrtHist.v
theories/PrtProof.v
theories/PrtProof2.v
theories/PrtProof3.v
theories/PrtProps.v
theories/TscSpec.v
theories/TscModel.v
theories/TscProof.v
theories/TscProof2.v
theories/TscProps.v
theories/ThrSpec.v
theories/ThrModel.v
theories/ThrProof.v
theories/ThrProof2.v
theories/ThrProps.v
theories/McSpec.v
theories/McModel.v
theories/McProof.v
theories/McProps.v
theories/NlkSpec.v
theories/NlkModel.v
theories/NlkProof.v
theories/NlkProof2.v
theories/NlkProps.v
theories/EvmSpec.v
theories/EvmModel.v
theories/EvmProof.v
theories/EvmProps.v
theories/MgtSpec.v
theories/MgtModel.v
theories/MgtProof.v
theories/MgtProof2.v
theories/MgtProof3.v
theories/MgtProps.v
theories/PsvSpec.v
theories/PsvModel.v
theories/PsvProof.v
theories/PsvProof2.v
theories/PsvProof3.v
theories/PsvProof4.v
theories/PsvProof5.v
theories/PsvProof6.v
theories/PsvProps.v
theories/CevSpec.v
theories/CevModel.v
theories/CevProof.v
theories/CevProof2.v
theories/CevProps.v
theories/PrvSpec.v
theories/PrvModel.v
theories/PrvProof.v
theories/PrvProps.v
theories/CtlSpec.v
theories/CtlModel.v
theories/CtlProof.v
theories/CtlProps.v
theories/PpsSpec.v
theories/PpsModel.v
theories/PpsProof.v
theories/PpsProof2.v
theories/PpsProof3.v
theories/PpsProps.v
theories/Nm6Spec.v
theories/Nm6Model.v
theories/Nm6Proof.v
theories/Nm6Proof2.v
theories/Nm6Proof3.v
theories/Nm6Proof4.v
theories/Nm6Proof5.v
theories/Nm6Props.v
theories/NtpSpec.v
theories/NtpModel.v
theories/NtpProof.v
theories/NtpProof2.v
theories/NtpProof3.v
theories/NtpProof4.v
theories/NtpProof5.v
theories/NtpProof6.v
theories/NtpProps.v
theories/CrnSpec.v
theories/CrnModel.v
theories/CrnProof.v
theories/CrnProof2.v
theories/CrnProof3.v
theories/CrnProof4.v
theories/CrnProof5.v
theories/CrnProof6.v
theories/CrnProof7.v
theories/CrnProof8.v
theories/CrnProof9.v
theories/CrnProps.v
theories/FrnSpec.v
theories/FrnModel.v
theories/FrnProof.v
theories/FrnProof2.v
theories/FrnProps.v
theories/PtiSpec.v
theories/PtiModel.v
theories/PtiProof.v
theories/PtiProof2.v
theories/PtiProof3.v
theories/PtiProps.v
theories/PbcSpec.v
theories/PbcModel.v
theories/PbcProof.v
theories/PbcProof2.v
theories/PbcProps.v
theories/PinSpec.v
theories/PinModel.v
theories/PinProof.v
theories/PinProof2.v
theories/PinProof3.v
theories/PinProps.v
theories/PhcSpec.v
theories/PhcModel.v
theories/PhcProof.v
theories/PhcProof2.v
theories/PhcProof3.v
theories/PhcProof4.v
theories/PhcProps.v
theories/RegSpec.v
theories/RegModel.v
theories/RegProof.v
theories/RegProof2.v
theories/RegProof3.v
theories/RegProof4.v
theories/RegProps.v
theories/PmcSpec.v
theories/PmcModel.v
theories/PmcProof.v
theories/PmcProof2.v
theories/PmcProof3.v
theories/PmcProof4.v
theories/PmcProof5.v
theories/PmcProof6.v
theories/PmcProof7.v
theories/PmcProps.v
theories/LacSpec.v
theories/LacModel.v
theories/LacProof.v
theories/LacProof2.v
theories/LacProps.v
theories/RmnSpec.v
theories/RmnModel.v
theories/RmnProof.v
theories/RmnProof2.v
theories/RmnProps.v
theories/MdgSpec.v
theories/MdgModel.v
theories/MdgProof.v
theories/MdgProof2.v
theories/MdgProps.v
theories/MsvSpec.v
theories/MsvModel.v
theories/MsvProof.v
theories/MsvProps.v
theories/MrqSpec.v
theories/MrqModel.v
theories/MrqProps.v
