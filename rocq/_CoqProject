-Q theories Verif
theories/Base.v
theories/BaseProof.v
theories/CsrModel.v
theories/CsrSpec.v
theories/CsrProof.v
theories/MeshModel.v
theories/MeshSpec.v
theories/MeshRep.v
theories/MeshProof.v
theories/MeshProof2.v
theories/MeshProof3.v
theories/MeshProof4.v
theories/MeshProof5.v
theories/MeshProof6.v
theories/MeshProof7.v
theories/MeshProof8.v
theories/MeshHist.v
theories/MeshProof9.v
theories/MeshProofA.v
theories/MeshProofB.v
theories/MeshProofC.v
theories/MeshProofD.v
theories/MeshProofE.v
theories/MeshProofF.v
theories/MeshProofG.v
theories/MeshWit.v
theories/MeshProps.v
theories/GraphModel.v
theories/GraphSpec.v
theories/GraphProof.v
theories/GraphProof2.v
theories/GraphProof3.v
theories/GraphProof4.v
theories/GraphProof5.v
theories/GraphProps.v
theories/MetisModel.v
theories/MetisSpec.v
theories/MetisProof.v
theories/MetisProof2.v
theories/MetisProof3.v
theories/MetisProof4.v
theories/MetisProps.v
theories/QcTac.v
theories/GeoModel.v
theories/GeoSpec.v
theories/GeoProof.v
theories/GeoProof2.v
theories/GeometryProps.v
theories/UnionModel.v
theories/UnionSpec.v
theories/UnionProof.v
theories/UnionProof2.v
theories/UnionProof3.v
theories/UnionProps.v
theories/CommonModel.v
theories/CommonSpec.v
theories/CommonProof.v
theories/CommonProof2.v
theories/CommonProps.v
theories/StringsModel.v
theories/StringsSpec.v
theories/StringsProof.v
theories/StringsProof2.v
theories/StringsProps.v
theories/ConfigModel.v
theories/ConfigSpec.v
theories/ConfigProof.v
theories/ConfigProof2.v
theories/ConfigProps.v
theories/MeshProg.v
theories/UtilModel.v
theories/UtilSpec.v
theories/UtilProofA.v
theories/UtilProofB.v
theories/UtilProofC.v
theories/UtilProofD.v
theories/UtilProofE.v
theories/UtilProofF.v
theories/UtilProofG.v
theories/UtilProofH.v
theories/UtilProofI.v
theories/UtilProps.v
theories/FillModel.v
theories/FillSpec.v
theories/FillProofA.v
theories/FillProofB.v
theories/FillProofC.v
theories/FillProofD.v
theories/FillProofE.v
theories/FillProofF.v
theories/FillProofG.v
theories/FillProofH.v
theories/FillProps.v
theories/EdgesModel.v
theories/EdgesSpec.v
theories/EdgesProof.v
theories/EdgesProps.v
theories/GridModel.v
theories/GridSpec.v
theories/GridProofA.v
theories/GridProofB.v
theories/GridProofC.v
theories/GridProofD.v
theories/GridProofE.v
theories/GridProps.v
theories/MapModel.v
theories/MapSpec.v
theories/MapProof.v
theories/MapProofB.v
theories/MapProofC.v
theories/MapProps.v
theories/QuadModel.v
theories/QuadSpec.v
theories/QuadProof.v
theories/QuadCheck.v
theories/QuadDouble.v
theories/QuadWord.v
theories/QuadGauss1D.v
theories/QuadLobatto1D.v
theories/QuadSquare.v
theories/QuadTriangle.v
theories/QuadHexahedron.v
theories/QuadTetrahedron.v
theories/QuadTetrahedronPositive.v
theories/QuadCheckGauss1D.v
theories/QuadCheckLobatto1D.v
theories/QuadCheckSquare.v
theories/QuadCheckTriangle.v
theories/QuadCheckHexahedron.v
theories/QuadCheckTetrahedron.v
theories/QuadCheckTetrahedronPositive.v
theories/QuadFinal.v
theories/QuadProps.v
theories/CutModel.v
theories/CutSpec.v
theories/CutProof.v
theories/CutProps.v
theories/PointModel.v
theories/PointSpec.v
theories/PointProof.v
theories/PointProps.v
theories/PolyModel.v
theories/PolySpec.v
theories/PolyProof.v
theories/TriProof.v
theories/EarProof.v
theories/ConvexProof.v
theories/NormalProof.v
theories/PolyProps.v
theories/HullModel.v
theories/HullSpec.v
theories/HullProof.v
theories/HullSort.v
theories/HullFinal.v
theories/HullFull.v
theories/HullAll.v
theories/HullTrue.v
theories/HullOrient.v
theories/HullProps.v
theories/RefineModel.v
theories/RefineSpec.v
theories/RefineView.v
theories/RefineSplit.v
theories/RefineReplace.v
theories/RefineCut.v
theories/RefineStep.v
theories/RefineStep2.v
theories/RefineWalk.v
theories/RefineFour.v
theories/RefineUndo.v
theories/RefineMove.v
theories/RefineNeigh.v
theories/RefineConf.v
theories/RefineTop.v
theories/RefineTri.v
theories/RefineArea.v
theories/RefineDir.v
theories/RefineWit.v
theories/RefineFinal.v
theories/RefineProps.v
theories/CsvModel.v
theories/CsvSpec.v
theories/CsvText.v
theories/CsvRows.v
theories/CsvLoop.v
theories/CsvConv.v
theories/CsvConv2.v
theories/CsvFinal.v
theories/CsvWit.v
theories/CsvProps.v
theories/IntersectModel.v
theories/IntersectSpec.v
theories/IntersectProof.v
theories/IntersectProof2.v
theories/IntersectProof3.v
theories/IntersectProof4.v
theories/IntersectRoots.v
theories/IntersectProps.v
theories/CheckModel.v
theories/CheckSpec.v
theories/CheckProof.v
theories/CheckProof2.v
theories/CheckSafe.v
theories/CheckConvex.v
theories/CheckSolid.v
theories/CheckData.v
theories/CheckWit.v
theories/CheckProps.v
theories/OffModel.v
theories/OffSpec.v
theories/OffProof.v
theories/OffProof2.v
theories/OffProps.v
theories/LoneModel.v
theories/LoneSpec.v
theories/LoneProof.v
theories/LoneProof2.v
theories/LoneProps.v
theories/ConcatModel.v
theories/ConcatSpec.v
theories/ConcatProof.v
theories/ConcatProps.v
theories/RayModel.v
theories/RaySpec.v
theories/RayProof.v
theories/RayConvex.v
theories/RayProps.v
theories/AggloModel.v
theories/AggloSpec.v
theories/AggloProof.v
theories/AggloMesh.v
theories/AggloAll.v
theories/AggloProps.v
theories/MarkModel.v
theories/MarkSpec.v
theories/MarkProof.v
theories/MarkRoots.v
theories/MarkProps.v
theories/OverlapModel.v
theories/OverlapSpec.v
theories/Helly.v
theories/OverlapProof.v
theories/OverlapProps.v
theories/JoinModel.v
theories/JoinSpec.v
theories/JoinProof.v
theories/JoinMesh.v
theories/JoinAll.v
theories/JoinEnd.v
theories/JoinProps.v
theories/WeldModel.v
theories/WeldSpec.v
theories/WeldProof.v
theories/WeldEnd.v
theories/WeldProps.v
theories/OutlineModel.v
theories/OutlineSpec.v
theories/OutlineRing.v
theories/OutlineProof.v
theories/OutlineEnd.v
theories/OutlineJoin.v
theories/OutlineProps.v
theories/CoordModel.v
theories/CoordSpec.v
theories/CoordProof.v
theories/CoordProps.v
theories/FindModel.v
theories/FindSpec.v
theories/FindProof.v
theories/FindProps.v
theories/SolidModel.v
theories/SolidSpec.v
theories/SolidProof.v
theories/SolidProps.v
theories/Find3Model.v
theories/Find3Spec.v
theories/Find3Proof.v
theories/Find3Props.v
theories/ToSplitModel.v
theories/ToSplitSpec.v
theories/ToSplitProof.v
theories/ToSplitProps.v
theories/FacetModel.v
theories/FacetSpec.v
theories/FacetProof.v
theories/FacetProps.v
theories/MergeModel.v
theories/MergeSpec.v
theories/MergeProof.v
theories/MergeProps.v
theories/TetraModel.v
theories/TetraSpec.v
theories/TetraProof.v
theories/TetraProps.v
theories/PrismModel.v
theories/PrismSpec.v
theories/PrismProof.v
theories/PrismProps.v
theories/RoundModel.v
theories/RoundSpec.v
theories/RoundProof.v
theories/RoundProps.v
