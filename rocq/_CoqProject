-Q theories Verif
theories/PyBase.v
theories/CycleModel.v
theories/CycleSpec.v
theories/CycleProofs.v
theories/DriverModel.v
theories/DriverSpec.v
theories/DriverProofs.v
theories/PropertiesCycle.v
theories/DualModel.v
theories/DualSpec.v
theories/DualProofs.v
theories/PropertiesDual.v
theories/RangeModel.v
theories/RangeSpec.v
theories/RangeProofs.v
theories/PropertiesRange.v
theories/FloatModel.v
theories/FloatProofs.v
theories/PropertiesFloat.v
theories/TimeModel.v
theories/TimeSpec.v
theories/TimeProofs.v
theories/TimeProofs2.v
theories/TimeProofs3.v
theories/TimeProofs4.v
theories/PropertiesTime.v
theories/CoordModel.v
theories/CoordSpec.v
theories/CoordProofs.v
theories/CoordProofs2.v
theories/PropertiesCoord.v
theories/DualCoordModel.v
theories/DualCoordSpec.v
theories/DualCoordProofs.v
theories/DualCoordProofs2.v
theories/PropertiesDualCoord.v
theories/VectorModel.v
theories/VectorSpec.v
theories/VectorProofs.v
theories/VectorProofs2.v
theories/PropertiesVector.v
theories/ScalingModel.v
theories/ScalingProofs.v
theories/ScalingProofs2.v
theories/ScalingSpec.v
theories/ScalingProofs3.v
theories/ScalingProofs4.v
theories/ScalingProofs5.v
theories/PropertiesScaling.v
theories/PropertiesScaling2.v
theories/PyString.v
theories/CorrectionModel.v
theories/CorrectionSpec.v
theories/CorrectionProofs.v
theories/PropertiesCorrection.v
theories/LoadModel.v
theories/LoadSpec.v
theories/LoadProofs.v
theories/PropertiesLoad.v
theories/PropertiesLoad2.v
theories/FilesModel.v
theories/FilesSpec.v
theories/FilesProofs.v
theories/PropertiesFiles.v
theories/DmspModel.v
theories/PropertiesDmsp.v
theories/PropertiesDmsp2.v
theories/TextSpec.v
theories/TextProofs.v
theories/SmagModel.v
theories/SmagSpec.v
theories/SmagProofs.v
theories/PropertiesSmag.v
theories/VortModel.v
theories/VortSpec.v
theories/VortProofs.v
theories/PropertiesVort.v
theories/TrackModel.v
theories/TrackSpec.v
theories/TrackProofs.v
theories/TrackProofs2.v
theories/PropertiesTrack.v
theories/GeneralModel.v
theories/GeneralSpec.v
theories/GeneralProofs.v
theories/GeneralProofs2.v
theories/GeneralProofs3.v
theories/PropertiesGeneral.v
theories/PysatModel.v
theories/PysatSpec.v
theories/PysatProofs.v
theories/PysatProofs2.v
theories/PysatProofs3.v
theories/PysatProofs4.v
theories/PropertiesPysat.v
theories/PropertiesPysat2.v
theories/OutputModel.v
theories/OutputSpec.v
theories/OutputProofs.v
theories/OutputProofs2.v
theories/OutputProofs3.v
theories/OutputProofs4.v
theories/OutputProofs5.v
theories/PropertiesOutput.v
theories/PropertiesOutput2.v
theories/PropertiesOutput3.v
theories/LocModel.v
theories/LocSpec.v
theories/LocProofs.v
theories/LocProofs2.v
theories/PropertiesLoc.v
theories/PropertiesLoc2.v
theories/VdataModel.v
theories/VdataSpec.v
theories/VdataProofs.v
theories/PropertiesVdata.v
theories/PropertiesVdata2.v
theories/BreprModel.v
theories/BreprSpec.v
theories/BreprProofs.v
theories/BreprProofs2.v
theories/PropertiesBrepr.v
theories/VtextModel.v
theories/VtextSpec.v
theories/VtextProofs.v
theories/VtextProofs2.v
theories/PropertiesVtext.v
theories/PropertiesVtext2.v
theories/PcoordModel.v
theories/PcoordSpec.v
theories/PcoordProofs.v
theories/PcoordProofs2.v
theories/PcoordProofs3.v
theories/PropertiesPcoord.v
theories/VdualModel.v
theories/VdualSpec.v
theories/VdualProofs.v
theories/VdualProofs2.v
theories/VdualProofs3.v
theories/PropertiesVdual.v
theories/FtimeModel.v
theories/FtimeSpec.v
theories/FtimeProofs.v
theories/FtimeProofs2.v
theories/PropertiesFtime.v
theories/PscaleModel.v
theories/PscaleSpec.v
theories/PscaleProofs.v
theories/PropertiesPscale.v
theories/PmetaModel.v
theories/PmetaSpec.v
theories/PmetaProofs.v
theories/PropertiesPmeta.v
theories/SymSpec.v
theories/SymProofs.v
theories/SymProofs2.v
theories/PropertiesSym.v
theories/SsjModel.v
theories/SsjSpec.v
theories/SsjProofs.v
theories/SsjProofs2.v
theories/PropertiesSsj.v
theories/FetchModel.v
theories/PropertiesSsj2.v
theories/DgeoModel.v
theories/DgeoProofs.v
theories/PropertiesDgeo.v
theories/PloadModel.v
theories/PloadProofs.v
theories/PropertiesPload.v
theories/DcritProofs.v
theories/PropertiesDcrit.v
theories/PdualModel.v
theories/PdualProofs.v
theories/PropertiesPdual.v
theories/DstrModel.v
theories/DorderProofs.v
theories/PropertiesDstr.v
theories/PiProofs.v
theories/FradModel.v
theories/FradProofs.v
theories/FradTurns.v
theories/PropertiesFrad.v
theories/FmatchModel.v
theories/FmatchProofs.v
theories/PropertiesFmatch.v
theories/FsoyModel.v
theories/FsoyProofs.v
theories/PropertiesFsoy.v
theories/FvortModel.v
theories/PropertiesFvort.v
theories/FmidModel.v
theories/PropertiesFmid.v
theories/FtolModel.v
theories/PropertiesFtol.v
theories/FdualModel.v
theories/PropertiesFdual.v
