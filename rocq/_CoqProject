-Q theories Verif
theories/F64.v
theories/F64R.v
theories/F64T.v
theories/CalModel.v
theories/CalSpec.v
theories/CalZ.v
theories/CalZ2.v
theories/CalProof.v
theories/CalProof2.v
theories/CalProof3.v
theories/CalProps.v
theories/Str.v
theories/DecSpec.v
theories/ItoaModel.v
theories/ItoaProof.v
theories/StrModel.v
theories/StrSpec.v
theories/StrProof.v
theories/StrProps.v
theories/FmtModel.v
theories/FmtSpec.v
theories/FmtProof.v
theories/FmtProof2.v
theories/FmtProps.v
theories/SsqTab.v
theories/SsqModel.v
theories/SsqSpec.v
theories/SsqProof.v
theories/SsqProof2.v
theories/SsqProof3.v
theories/SsqProof4.v
theories/SsqProof5.v
theories/SsqProof6.v
theories/SsqProps.v
theories/ObSpec.v
theories/ObTab.v
theories/ObSpecTab.v
theories/HuiModel.v
theories/HuiProof.v
theories/ObModel.v
theories/CountZ.v
theories/ObProof.v
theories/EraProof.v
theories/ObProps.v
theories/LunSpec.v
theories/LunProof.v
theories/LunProps.v
theories/PageModel.v
theories/PageSpec.v
theories/PageProof.v
theories/PageProof2.v
theories/PageProof3.v
theories/PageProof4.v
theories/PageProps.v
theories/BaziModel.v
theories/BaziSpec.v
theories/BaziProof.v
theories/BaziProps.v
theories/GeoModel.v
theories/GeoSpec.v
theories/GeoProof.v
theories/GeoProps.v
theories/AngModel.v
theories/AngProps.v
theories/DtModel.v
theories/DtSpec.v
theories/DtProof.v
theories/DtProps.v
theories/SerModel.v
theories/SerSpec.v
theories/SerProof.v
theories/SerProps.v
theories/SerProof2.v
theories/SerProps2.v
theories/SerProps3.v
theories/RsgsModel.v
theories/RsgsProps.v
theories/SzjModel.v
theories/SzjProps.v
theories/DtoaModel.v
theories/DtoaSpec.v
theories/DtoaFix.v
theories/DtoaFix2.v
theories/DtoaFix3.v
theories/DtoaFix4.v
theories/DtoaGen.v
theories/DtoaTab.v
theories/DtoaGrisu.v
theories/DtoaProps.v
theories/VecModel.v
theories/VecSpec.v
theories/VecProof.v
theories/VecProof2.v
theories/VecProof3.v
theories/VecProof4.v
theories/VecProps.v
theories/PosTab.v
theories/PosModel.v
theories/PosSpec.v
theories/PosProof.v
theories/PosProps.v
theories/SarrModel.v
theories/SarrSpec.v
theories/SarrProps.v
theories/F64B.v
theories/F64E.v
theories/PiBound.v
theories/IllModel.v
theories/IllSpec.v
theories/IllProps.v
theories/ArrModel.v
theories/ArrLib.v
theories/SortModel.v
theories/SortSpec.v
theories/HeapProof.v
theories/SortProof.v
theories/SortProps.v
theories/BsModel.v
theories/BsProps.v
theories/SetModel.v
theories/SetProps.v
theories/RotModel.v
theories/RotProof.v
theories/RotProps.v
theories/MergeModel.v
theories/MergeProps.v
theories/PermModel.v
theories/PermProps.v
theories/SeqModel.v
theories/SeqProof.v
theories/SeqProps.v
theories/Seq2Props.v
theories/RbModel.v
theories/RbProof.v
theories/RbErase.v
theories/RbUnlink.v
theories/RbClass.v
theories/RbHold.v
theories/RbSpec.v
theories/RbOps.v
theories/RbHint.v
theories/RbDel.v
theories/RbFind.v
theories/RbCopy.v
theories/RbClient.v
theories/RbRun.v
theories/RbProps.v
theories/LxbModel.v
theories/LxbProps.v
theories/YearModel.v
theories/YearSpec.v
theories/YearProof.v
theories/YearProps.v
theories/F64S.v
theories/ErrExpr.v
theories/FormModel.v
theories/FormSpec.v
theories/FormProps.v
theories/EcModel.v
theories/EcSpec.v
theories/EcReal.v
theories/EcProof.v
theories/EcGeom.v
theories/EcKind.v
theories/EcProps.v
theories/SmTab.v
theories/WaveF.v
theories/WaveR.v
theories/SmModel.v
theories/SmSpec.v
theories/SmF.v
theories/SmLon.v
theories/SmProps.v
theories/SmSun.v
theories/SmNewton.v
theories/SunProps.v
theories/LonProps.v
theories/SmMoon.v
theories/MoonProps.v
theories/QuickR.v
theories/HighR.v
theories/QuickSun.v
theories/TermDay.v
theories/QuickMoonR.v
theories/QuickMoon.v
theories/NewMoon.v
theories/MoonGap.v
theories/LunarYear.v
theories/ListModel.v
theories/ListSpec.v
theories/ListProof.v
theories/ListProof2.v
theories/ListProof3.v
theories/ListProof4.v
theories/ListProof5.v
theories/ListProps.v
theories/EsModel.v
theories/EsSpec.v
theories/EsProof.v
theories/EsProps.v
theories/StModel.v
theories/StSpec.v
theories/StReal.v
theories/StProof.v
theories/StNoon.v
theories/StDay.v
theories/StProps.v
theories/ObsModel.v
theories/ObsSpec.v
theories/ObsProps.v
theories/SecModel.v
theories/SecProps.v
theories/DeqModel.v
theories/DeqSpec.v
theories/DeqProof.v
theories/DeqOps.v
theories/DeqEnds.v
theories/DeqIns.v
theories/DeqFill.v
theories/DeqRem.v
theories/DeqLife.v
theories/DeqProps.v
theories/HtModel.v
theories/HtSpec.v
theories/HtProof.v
theories/HtLook.v
theories/HtIns.v
theories/HtRehash.v
theories/HtGrow.v
theories/HtErase.v
theories/HtLife.v
theories/F32R.v
theories/HtLoad.v
theories/HtProps.v
theories/AdModel.v
theories/AdProps.v
theories/FmModel.v
theories/FmProps.v
theories/ShModel.v
theories/ShProps.v
theories/ShProps2.v
theories/ShProps3.v
theories/ExModel.v
theories/ExProof.v
theories/ExProps.v
theories/ExVec.v
theories/BufModel.v
theories/BufProps.v
theories/SjModel.v
theories/SjProps.v
theories/SjPolar.v
theories/ZbModel.v
theories/ZbProps.v
theories/XtModel.v
theories/XtProps.v
theories/XtStat.v
theories/MnModel.v
theories/MnProps.v
theories/PtModel.v
theories/PtProps.v
theories/MscModel.v
theories/MscProps.v
theories/CirModel.v
theories/CirProps.v
theories/NutModel.v
theories/NutProps.v
theories/EtModel.v
theories/EtProps.v
theories/QrdModel.v
theories/QrdProps.v
theories/PscModel.v
theories/PscProps.v
theories/CpModel.v
theories/CpProps.v
theories/XpModel.v
theories/XpProps.v
theories/StoModel.v
theories/StoProps.v
theories/RptModel.v
theories/RptProps.v
theories/Rs2Model.v
theories/Rs2Props.v
theories/FnvModel.v
theories/FnvProps.v
theories/RysModel.v
theories/RysProps.v
theories/EttModel.v
theories/EttProps.v
theories/MtxModel.v
theories/MtxProps.v
theories/OvwModel.v
theories/OvwProps.v
theories/JxModel.v
theories/JxProps.v
theories/XgtModel.v
theories/XgtProps.v
theories/RyhModel.v
theories/RyhProps.v
