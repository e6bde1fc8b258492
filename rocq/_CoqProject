-Q theories Verif
theories/GoBase.v
theories/BaseFacts.v
theories/EncodingModel.v
theories/MatrixModel.v
theories/EncodingProofs.v
theories/Properties_Encoding.v
theories/FieldModel.v
theories/FSSModel.v
theories/FieldProofs.v
theories/XorFacts.v
theories/FSSProofs.v
theories/FSSProofs2.v
theories/MerkleModel.v
theories/MerkleSpec.v
theories/MerkleProofs.v
theories/MerkleProofs2.v
theories/MerkleProofs3.v
theories/MerkleProofs4.v
theories/ToyInstances.v
theories/Properties_FSS.v
theories/Properties_Merkle.v
theories/PredicateModel.v
theories/PredicateSpec.v
theories/CalendarProofs.v
theories/PredicateProofs.v
theories/PredicateProofs2.v
theories/PredicateProofs3.v
theories/PredicateProofs4.v
theories/Properties_Predicate.v
theories/PointModel.v
theories/PointSpec.v
theories/PointProofs.v
theories/PointProofs2.v
theories/PointProofs3.v
theories/PointProofs4.v
theories/PointProofs5.v
theories/ToyPoint.v
theories/Properties_PointPIR.v
theories/LWEModel.v
theories/LWESpec.v
theories/MatrixProofs.v
theories/LWEProofs.v
theories/LWEProofs2.v
theories/LWEProofs3.v
theories/LWEProofs4.v
theories/PrgModel.v
theories/PrgSpec.v
theories/PrgProofs.v
theories/Properties_LWE.v
theories/DHModel.v
theories/DHSpec.v
theories/DHProofs.v
theories/DHProofs2.v
theories/DHProofs3.v
theories/ToyGroup.v
theories/Properties_DH.v
theories/DirectoryModel.v
theories/DirectorySpec.v
theories/DirectoryProofs.v
theories/DirectoryProofs2.v
theories/DirectoryProofs3.v
theories/DirectoryProofs4.v
theories/DirectoryProofs5.v
theories/ToyDirectory.v
theories/Properties_Directory.v
theories/RPCModel.v
theories/RPCSpec.v
theories/RPCProofs.v
theories/RPCProofs2.v
theories/Properties_RPC.v
theories/FrontendModel.v
theories/FrontendSpec.v
theories/FrontendProofs.v
theories/FrontendProofs2.v
theories/Properties_Frontend.v
theories/BufferModel.v
theories/BufferSpec.v
theories/BufferProofs.v
theories/BufferProofs2.v
theories/Properties_Buffer.v
theories/SimulModel.v
theories/AmplifySpec.v
theories/AmplifyProofs.v
theories/AmplifyProofs2.v
theories/AmplifyProofs3.v
theories/Properties_Simul.v
theories/MultiModel.v
theories/MultiSpec.v
theories/MultiProofs.v
theories/MultiProofs2.v
theories/MultiProofs3.v
theories/Properties_Multi.v
theories/SharedModel.v
theories/SharedSpec.v
theories/SharedProofs.v
theories/Properties_Shared.v
theories/NoiseModel.v
theories/NoiseSpec.v
theories/NoiseProofs.v
theories/NoiseProofs2.v
theories/NoiseProofs3.v
theories/Properties_Noise.v
theories/FilesModel.v
theories/FilesSpec.v
theories/FilesProofs.v
theories/FilesProofs2.v
theories/FilesProofs3.v
theories/Properties_Files.v
theories/RobustModel.v
theories/RobustSpec.v
theories/RobustProofs.v
theories/RobustProofs2.v
theories/RobustProofs3.v
theories/RobustProofs4.v
theories/RobustProofs5.v
theories/RobustProofs6.v
theories/Properties_Robust.v
theories/HostileSpec.v
theories/HostileProofs.v
theories/Properties_Hostile.v
theories/BenchModel.v
theories/BenchSpec.v
theories/BenchProofs.v
theories/BenchProofs2.v
theories/BenchProofs3.v
theories/Properties_Bench.v
theories/KeyPageModel.v
theories/KeyPageSpec.v
theories/KeyPageProofs.v
theories/KeyPageProofs2.v
theories/KeyPageProofs3.v
theories/Properties_KeyPage.v
theories/SessionModel.v
theories/SessionSpec.v
theories/SessionProofs.v
theories/SessionProofs2.v
theories/Properties_Session.v
theories/FloatModel.v
theories/FloatSpec.v
theories/FloatProofs.v
theories/FloatProofs2.v
theories/Properties_Float.v
theories/ChannelModel.v
theories/ChannelSpec.v
theories/ChannelProofs.v
theories/Properties_Channel.v
theories/LifecycleModel.v
theories/LifecycleSpec.v
theories/LifecycleProofs.v
theories/Properties_Lifecycle.v
theories/WireModel.v
theories/WireSpec.v
theories/WireProofs.v
theories/WireProofs2.v
theories/Properties_Wire.v
theories/ProfileModel.v
theories/ProfileSpec.v
theories/ProfileProofs.v
theories/Properties_Profile.v
theories/EndToEndSpec.v
theories/EndToEndProofs.v
theories/Properties_EndToEnd.v
theories/CountSpec.v
theories/CountProofs.v
theories/Properties_Count.v
theories/GobModel.v
theories/GobSpec.v
theories/GobProofs.v
theories/GobProofs2.v
theories/Properties_Gob.v
theories/MultiNetModel.v
theories/MultiNetSpec.v
theories/MultiNetProofs.v
theories/Properties_MultiNet.v
theories/MultiNetProofs2.v
theories/Properties_PointNet.v
theories/PgpHelpModel.v
theories/PgpHelpSpec.v
theories/PgpHelpProofs.v
theories/Properties_PgpHelp.v
theories/LogModel.v
theories/LogSpec.v
theories/LogProofs.v
theories/Properties_Log.v
theories/ResultsModel.v
theories/ResultsSpec.v
theories/ResultsProofs.v
theories/Properties_Results.v
theories/TrialModel.v
theories/TrialSpec.v
theories/TrialProofs.v
theories/Properties_Trial.v
theories/Properties_PointLog.v
theories/DriverModel.v
theories/DriverProofs.v
theories/Properties_Driver.v
theories/IntegrityModel.v
theories/IntegritySpec.v
theories/IntegrityProofs.v
theories/Properties_Integrity.v
