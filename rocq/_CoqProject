-Q theories Verif
theories/AesModel.v
theories/AesProofs.v
theories/AesProofs2.v
theories/AesProofs3.v
theories/AesProps.v
theories/AesSpec.v
theories/BcryptModel.v
theories/BcryptProofs.v
theories/BcryptProofs2.v
theories/BcryptProofs3.v
theories/BcryptProps.v
theories/BcryptSpec.v
theories/Blake2Model.v
theories/Blake3Model.v
theories/Blake3Proofs.v
theories/Blake3Proofs2.v
theories/Blake3Proofs3.v
theories/Blake3Proofs4.v
theories/Blake3Props.v
theories/Blake3Spec.v
theories/BlakeProofs.v
theories/BlakeProofs2.v
theories/BlakeProps.v
theories/BlakeSpec.v
theories/BlockKat.v
theories/BlockLib.v
theories/BlockProps.v
theories/BlockPropsLib.v
theories/BlockSpec.v
theories/BlowfishModel.v
theories/BlowfishProofs.v
theories/BlowfishProofs2.v
theories/BlowfishProps.v
theories/BlowfishSpec.v
theories/CamelliaModel.v
theories/CamelliaProofs.v
theories/Cast5Model.v
theories/Cast5Proofs.v
theories/CipherBase.v
theories/CipherLib.v
theories/DesModel.v
theories/DesProofs.v
theories/DhModel.v
theories/DhProofs.v
theories/DhProps.v
theories/DhSpec.v
theories/DlModel.v
theories/DlProofs.v
theories/DlProps.v
theories/EcMeaning.v
theories/EcModel.v
theories/EcProofs.v
theories/EcProofs2.v
theories/EcProps.v
theories/EcSpec.v
theories/EncModel.v
theories/EncProofs.v
theories/EncProofs64.v
theories/EncProofsUU.v
theories/EncProps.v
theories/EncSpec.v
theories/EncTables.v
theories/FealModel.v
theories/FealProofs.v
theories/FeistelLib.v
theories/FortunaModel.v
theories/FortunaProofs.v
theories/FortunaProps.v
theories/GfProofs.v
theories/GostModel.v
theories/GostProofs.v
theories/HashKat.v
theories/HashModel.v
theories/HashProofs.v
theories/HashProofs2.v
theories/HashProofs3.v
theories/HashProofs4.v
theories/HashProps.v
theories/HashSim.v
theories/HashSpec.v
theories/HashTables.v
theories/HuffModel.v
theories/HuffProofs.v
theories/HuffProofs2.v
theories/HuffProofs3.v
theories/HuffProofs4.v
theories/HuffProofs5.v
theories/HuffProps.v
theories/IdeaModel.v
theories/IdeaProofs.v
theories/KeccakModel.v
theories/KeccakProofs.v
theories/KeccakProofs2.v
theories/KeccakProps.v
theories/KeccakSpec.v
theories/KeyProofs.v
theories/KeyProps.v
theories/MacModel.v
theories/MacPipe.v
theories/MacProofs.v
theories/MacProofs2.v
theories/MacProps.v
theories/MacSpec.v
theories/MarsModel.v
theories/MarsProofs.v
theories/MistyModel.v
theories/MistyProofs.v
theories/ModeModel.v
theories/ModeProofs.v
theories/ModeProofs2.v
theories/ModeProofs3.v
theories/ModeProofs4.v
theories/ModeProps.v
theories/ModeSpec.v
theories/MpModel.v
theories/MpModel2.v
theories/MpProofs.v
theories/MpProofs2.v
theories/MpProofs3.v
theories/MpProofs4.v
theories/MpProofs5.v
theories/MpProofs6.v
theories/MpProps.v
theories/MpProps2.v
theories/MpSpec.v
theories/NoekeonModel.v
theories/NoekeonProofs.v
theories/NoekeonProofs2.v
theories/NoekeonProps.v
theories/NoekeonSpec.v
theories/NumTheory.v
theories/PadModel.v
theories/PadProofs.v
theories/PadProps.v
theories/PadSpec.v
theories/PemModel.v
theories/PemProofs.v
theories/PemProps.v
theories/PemSpec.v
theories/PkLib.v
theories/PresentModel.v
theories/PresentProofs.v
theories/PresentProofs2.v
theories/PresentProps.v
theories/PresentSpec.v
theories/RabbitProofs.v
theories/RcModel.v
theories/RcProofs.v
theories/RcProofs2.v
theories/RcProps.v
theories/RcSpec.v
theories/RsaModel.v
theories/RsaProofs.v
theories/RsaProps.v
theories/SaferModel.v
theories/SaferProofs.v
theories/SealProofs.v
theories/SerpentModel.v
theories/SerpentProofs.v
theories/ShacalModel.v
theories/ShacalProofs.v
theories/ShacalProofs2.v
theories/ShacalProps.v
theories/ShacalSpec.v
theories/SipModel.v
theories/SipProofs.v
theories/SipProps.v
theories/SipSpec.v
theories/StreamModel.v
theories/StreamProofs.v
theories/StreamProps.v
theories/StreamSpec.v
theories/TaskModel.v
theories/TeaModel.v
theories/TeaProofs.v
theories/TigerModel.v
theories/TigerProofs.v
theories/TigerProps.v
theories/TigerSpec.v
theories/TigerTables.v
theories/TwofishModel.v
theories/TwofishProofs.v
theories/UtilModel.v
theories/UtilProofs.v
theories/UtilProps.v
theories/WhirlModel.v
theories/WhirlProofs.v
theories/WhirlSpec.v
theories/WordCipherProofs.v
theories/WordCipherProps.v
theories/WordCipherSpec.v
theories/Words.v
