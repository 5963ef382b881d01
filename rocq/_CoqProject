-Q theories Verif

theories/Base.v
theories/Num.v
theories/DrawModel.v
theories/DrawSpec.v
theories/DrawProofs.v
theories/DrawProps.v
theories/LinesModel.v
theories/LinesCyModel.v
theories/RBool.v
theories/LinesSpec.v
theories/LinesProofs.v
theories/LinesRProofs.v
theories/LinesHitsProofs.v
theories/LinesCyProofs.v
theories/LinesGeomModel.v
theories/LinesGeomProofs.v
theories/LinesProps.v
theories/StatsModel.v
theories/StatsSpec.v
theories/StatsProofs.v
theories/UncertainProofs.v
theories/StatsProps.v
theories/PyStr.v
theories/PyStrProofs.v
theories/StrformatModel.v
theories/StrformatProofs.v
theories/StrformatProps.v
theories/ImageModel.v
theories/ImageSpec.v
theories/ImageProofs.v
theories/ImageProps.v
theories/MaskModel.v
theories/MaskSpec.v
theories/MaskProofs.v
theories/MaskProps.v
theories/EyeModel.v
theories/EyeSpec.v
theories/EyeProofs.v
theories/EyeRProofs.v
theories/EyeProps.v
theories/Pam2Model.v
theories/Pam2Spec.v
theories/Pam2Proofs.v
theories/Pam2Props.v
theories/ScpiModel.v
theories/ScpiSpec.v
theories/ScpiProofs.v
theories/ScpiProps.v
theories/IOModel.v
theories/EquipModel.v
theories/EquipSpec.v
theories/EquipProofs.v
theories/ConnectProofs.v
theories/EquipProps.v
theories/TekModel.v
theories/TekSpec.v
theories/TekProofs.v
theories/TekProps.v
theories/WfmModel.v
theories/WfmSpec.v
theories/WfmProofs.v
theories/WfmProps.v
theories/ScopeModel.v
theories/ScopeSpec.v
theories/ScopeProofs.v
theories/ScopeTripProofs.v
theories/ScopeReadProofs.v
theories/ScopeHistProofs.v
theories/ScopeProps.v
theories/AutoModel.v
theories/AutoSpec.v
theories/AutoProofs.v
theories/AutoIdealProofs.v
theories/AutoProps.v
theories/CdrModel.v
theories/CdrSpec.v
theories/CdrProofs.v
theories/CdrSearchProofs.v
theories/CdrRunProofs.v
theories/CdrProps.v
theories/MathModel.v
theories/MathSpec.v
theories/MathProofs.v
theories/GaussProofs.v
theories/BinExpProofs.v
theories/MathProps.v
theories/GaussProps.v
theories/BinExpProps.v
theories/ConfigModel.v
theories/ConfigProps.v
theories/EyeImageModel.v
theories/EyeRunModel.v
theories/EyeRunSpec.v
theories/EyeRunProofs.v
theories/EyeRunPeriod.v
theories/EyeRunProps.v
theories/EyeLevelsProofs.v
theories/EyeLevelsProps.v
theories/EyeReportSpec.v
theories/EyeReportProps.v
theories/EyeTimesProps.v
theories/ScopeUseModel.v
theories/ScopeUseSpec.v
theories/ScopeAcqProps.v
theories/ScopeWaveProps.v
theories/ScopeAutoModel.v
theories/ScopeAutoSpec.v
theories/ScopeAutoProofs.v
theories/ScopeFitProofs.v
theories/ScopeAutoProps.v
theories/ScopeBenchProps.v
theories/ScopeOpenProps.v
theories/ScopeRateProps.v
theories/EyeImageSpec.v
theories/EyeImageProofs.v
theories/EyeImageProps.v
theories/ReportModel.v
theories/ReportSpec.v
theories/ReportProofs.v
theories/ReportProps.v
theories/MaskDictModel.v
theories/MaskDictSpec.v
theories/MaskDictProps.v
theories/SessionModel.v
theories/SessionSpec.v
theories/SessionProofs.v
theories/SessionProps.v
theories/EyeDataSpec.v
theories/EyeDataProps.v
theories/EyeClockProps.v
theories/EyeClockExample.v
theories/EyeUnitsSpec.v
theories/EyeUnitsProofs.v
theories/EyeUnitsProps.v
theories/EyeTimeSpec.v
theories/EyeTimeProofs.v
theories/CdrTimeProofs.v
theories/EyeTimeProps.v
theories/EyeOrderSpec.v
theories/EyeOrderProofs.v
theories/EyeOrderProps.v
theories/BasicsProps.v
theories/EyeOpenSpec.v
theories/EyeOpenProofs.v
theories/EyeOpenProps.v
theories/CdrJitterSpec.v
theories/CdrJitterProofs.v
theories/CdrJitterProps.v
theories/EyeTrackProps.v
theories/LinesRational.v
theories/EyeTrackExample.v
theories/EyeEdgesSpec.v
theories/EyeEdgesProofs.v
theories/EyeEdgesProps.v
theories/EyeEdgesExample.v
theories/EyeWideSpec.v
theories/EyeWideProofs.v
theories/EyeWideProps.v
theories/EyeWideExample.v
theories/EyeLinesProps.v
theories/EyeLinesOpenProps.v
theories/EyeSkipProps.v
theories/EyeResProps.v
theories/EyeDebugProps.v
theories/EyeMasklessProps.v
theories/EyeClockWaveProps.v
theories/EyeGlitchProps.v
theories/EyeInvertProps.v
theories/EyeDurationProps.v
theories/EyeRecordsProps.v
