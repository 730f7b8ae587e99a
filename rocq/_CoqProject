-Q theories Verif

theories/MQModel.v
theories/MQSpec.v
theories/MQProofs.v
theories/MQProofs2.v
theories/MQProofs3.v
theories/MQProofs4.v
theories/MQProofs5.v
theories/MQProofs6.v
theories/MQProofs7.v
theories/MQProperties.v
theories/MQProperties2.v
theories/FsmModel.v
theories/FsmSpec.v
theories/FsmProofs.v
theories/FsmProperties.v
theories/Prof16Model.v
theories/Prof16Spec.v
theories/Prof16Proofs.v
theories/Prof16Proofs2.v
theories/Sc16Model.v
theories/Sc16Spec.v
theories/Prof16Proofs3.v
theories/Sc16Proofs.v
theories/Sc16Proofs2.v
theories/Sc16Proofs3.v
theories/Sc16Proofs4.v
theories/Sc16Proofs5.v
theories/Sc16Proofs6.v
theories/Sc16Properties.v
theories/CsmModel.v
theories/CsmSpec.v
theories/CsmProofs.v
theories/CsmProofs2.v
theories/CsmProofs3.v
theories/CsmProofs4.v
theories/CsmProperties.v
theories/StrModel.v
theories/StrSpec.v
theories/StrProofs.v
theories/StrProperties.v
theories/WsModel.v
theories/WsSpec.v
theories/WsProofs.v
theories/WsProperties.v
theories/JsonModel.v
theories/JsonProofs.v
theories/FrameModel.v
theories/FrameSpec.v
theories/FrameProofs.v
theories/FrameProperties.v
theories/AuthModel.v
theories/AuthSpec.v
theories/AuthProofs.v
theories/AuthProperties.v
theories/DmModel.v
theories/DmSpec.v
theories/DmProofs.v
theories/DmProofs2.v
theories/DmProofs3.v
theories/DmProofs4.v
theories/DmProofs5.v
theories/DmProperties.v
theories/ConnModel.v
theories/ConnSpec.v
theories/ConnProofs.v
theories/ConnProofs2.v
theories/ConnProofs3.v
theories/ConnProperties.v
theories/TxModel.v
theories/TxSpec.v
theories/TxProofs.v
theories/TxProofs2.v
theories/TxProofs3.v
theories/TxProofs4.v
theories/TxProofs5.v
theories/TxProofs6.v
theories/TxProofs7.v
theories/TxProofs8.v
theories/TxSpec2.v
theories/TxProofs9.v
theories/TxProperties.v
theories/TxProperties2.v
theories/TxProperties3.v
theories/MonModel.v
theories/MonSpec.v
theories/MonSpec2.v
theories/MonProofs.v
theories/MonProofs2.v
theories/MonProofs3.v
theories/MonProofs4.v
theories/MonProofs5.v
theories/MonProofs6.v
theories/MonProperties.v
theories/P2Model.v
theories/P2Spec.v
theories/P2Proofs.v
theories/P2Proofs2.v
theories/P2Proofs3.v
theories/P2Proofs4.v
theories/Sc2Model.v
theories/Sc2Spec.v
theories/Sc2Proofs.v
theories/Sc2Proofs2.v
theories/Sc2Proofs3.v
theories/Sc2Proofs4.v
theories/Sc2Properties.v
theories/Sc2Spec2.v
theories/Sc2Proofs5.v
theories/Sc2Proofs6.v
theories/Sc2Proofs7.v
theories/Sc2Properties2.v
theories/EnumModel.v
theories/EnumTables.v
theories/EnumProperties.v
theories/UriModel.v
theories/UriSpec.v
theories/UriProofs.v
theories/UriProofs2.v
theories/UriProperties.v
theories/MvModel.v
theories/MvEvse.v
theories/MvSpec.v
theories/MvSpec2.v
theories/MvProofs.v
theories/MvProofs2.v
theories/MvProofs3.v
theories/MvProofs4.v
theories/MvProofs5.v
theories/MvProperties.v
theories/DtModel.v
theories/DtSpec.v
theories/DtCalendar.v
theories/DtProofs.v
theories/DtProperties.v
theories/SerModel.v
theories/SerTables.v
theories/SerSpec.v
theories/SerProofs.v
theories/SerProofs2.v
theories/SerProofs3.v
theories/SerProperties.v
theories/CfgSchemaLang.v
theories/CfgModel.v
theories/CfgSchema.v
theories/CfgTables.v
theories/CfgExample.v
theories/CfgApi.v
theories/CfgSpec.v
theories/CfgProofs.v
theories/CfgProofs2.v
theories/CfgProofs3.v
theories/CfgProofs4.v
theories/CfgProofs5.v
theories/CfgProofs6.v
theories/CfgProofs7.v
theories/CfgProofs8.v
theories/CfgProofs9.v
theories/CfgProofs10.v
theories/CfgProofs11.v
theories/CfgProperties.v
theories/JsonPretty.v
theories/CfgSpec2.v
theories/CfgProofs12.v
theories/CfgProofs13.v
theories/CfgProperties2.v
theories/SecModel.v
theories/SecSpec.v
theories/SecProofs.v
theories/SecProofs2.v
theories/SecProofs3.v
theories/SecProperties.v
theories/FwModel.v
theories/FwSpec.v
theories/FwProofs.v
theories/FwProofs2.v
theories/FwProperties.v
theories/RcModel.v
theories/RcSpec.v
theories/RcProofs.v
theories/RcProofs2.v
theories/RcProofs3.v
theories/RcProperties.v
theories/IdbModel.v
theories/IdbSpec.v
theories/IdbProofs.v
theories/IdbProofs2.v
theories/IdbProofs3.v
theories/IdbProofs4.v
theories/IdbProofs5.v
theories/IdbProofs6.v
theories/IdbProofs7.v
theories/IdbProofs8.v
theories/IdbProofs9.v
theories/IdbProperties.v
theories/T16Model.v
theories/T16Spec.v
theories/T16Proofs.v
theories/T16Proofs2.v
theories/T16Proofs3.v
theories/T16Proofs4.v
theories/T16Proofs5.v
theories/T16Proofs6.v
theories/T16Proofs7.v
theories/T16Proofs8.v
theories/T16Properties.v
theories/A16Model.v
theories/A16Spec.v
theories/A16Proofs.v
theories/A16Proofs2.v
theories/A16Properties.v
theories/RegModel.v
theories/RegSpec.v
theories/RegProofs.v
theories/RegProofs2.v
theories/RegProofs3.v
theories/RegProperties.v
theories/BlkModel.v
theories/BlkSpec.v
theories/BlkProofs.v
theories/BlkProperties.v
theories/OcspModel.v
theories/OcspSpec.v
theories/OcspProofs.v
theories/OcspProperties.v
theories/Av16Model.v
theories/Av16Spec.v
theories/Av16Proofs.v
theories/Av16Properties.v
theories/B16Model.v
theories/B16Spec.v
theories/B16Proofs.v
theories/B16Proofs2.v
theories/B16Properties.v
theories/D16Model.v
theories/D16Spec.v
theories/D16Proofs.v
theories/D16Properties.v
theories/R16Model.v
theories/R16Spec.v
theories/R16Proofs.v
theories/R16Properties.v
theories/Px16Model.v
theories/Px16Spec.v
theories/Px16Proofs.v
theories/Px16Properties.v
theories/Up16Model.v
theories/Up16Spec.v
theories/Up16Proofs.v
theories/Up16Properties.v
theories/LogModel.v
theories/LogSpec.v
theories/LogProofs.v
theories/LogProofs2.v
theories/LogProofs3.v
theories/LogProofs4.v
theories/LogProperties.v
theories/Sp16Model.v
theories/Sp16Spec.v
theories/Sp16Proofs.v
theories/Sp16Properties.v
theories/BdModel.v
theories/BdSpec.v
theories/BdProofs.v
theories/BdProperties.v
theories/VcModel.v
theories/VcSpec.v
theories/VcProofs.v
theories/VcProperties.v
theories/CbModel.v
theories/CbSpec.v
theories/CbProofs.v
theories/CbProperties.v
theories/SqModel.v
theories/SqSpec.v
theories/SqProofs.v
theories/SqProperties.v
theories/PmModel.v
theories/PmSpec.v
theories/PmProofs.v
theories/PmProperties.v
theories/EsModel.v
theories/EsSpec.v
theories/EsProofs.v
theories/EsProperties.v
theories/RxModel.v
theories/RxSpec.v
theories/RxProofs.v
theories/RxProperties.v
