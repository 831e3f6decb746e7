(** * The tables of GeDiM/src/Quadrature/Quadrature_Gauss3D_Hexahedron.cpp *)
From Verif Require Import Base QuadModel.
Local Open Scope Z_scope.

(** FillPointsAndWeights, order 0, 1: Quadrature_Gauss3D_Hexahedron.cpp:26-33. *)
Definition Hexahedron_1 : rule := Rule false [
  ([Dec 50000000000000000 17; Dec 50000000000000000 17; Dec 50000000000000000 17], Dec 10000000000000000 16)].

(** FillPointsAndWeights, order 2, 3: Quadrature_Gauss3D_Hexahedron.cpp:36-71. *)
Definition Hexahedron_3 : rule := Rule false [
  ([Dec 21132486540518713 17; Dec 21132486540518713 17; Dec 21132486540518713 17], Dec 12500000000000000 17);
  ([Dec 21132486540518713 17; Dec 21132486540518713 17; Dec 78867513459481287 17], Dec 12500000000000000 17);
  ([Dec 78867513459481287 17; Dec 21132486540518713 17; Dec 21132486540518713 17], Dec 12500000000000000 17);
  ([Dec 78867513459481287 17; Dec 21132486540518713 17; Dec 78867513459481287 17], Dec 12500000000000000 17);
  ([Dec 21132486540518713 17; Dec 78867513459481287 17; Dec 21132486540518713 17], Dec 12500000000000000 17);
  ([Dec 21132486540518713 17; Dec 78867513459481287 17; Dec 78867513459481287 17], Dec 12500000000000000 17);
  ([Dec 78867513459481287 17; Dec 78867513459481287 17; Dec 21132486540518713 17], Dec 12500000000000000 17);
  ([Dec 78867513459481287 17; Dec 78867513459481287 17; Dec 78867513459481287 17], Dec 12500000000000000 17)].

(** FillPointsAndWeights, order 4, 5: Quadrature_Gauss3D_Hexahedron.cpp:74-185. *)
Definition Hexahedron_5 : rule := Rule false [
  ([Dec 11270166537925830 17; Dec 11270166537925830 17; Dec 11270166537925830 17], Dec 21433470507544586 18);
  ([Dec 11270166537925830 17; Dec 11270166537925830 17; Dec 50000000000000000 17], Dec 34293552812071332 18);
  ([Dec 11270166537925830 17; Dec 11270166537925830 17; Dec 88729833462074170 17], Dec 21433470507544586 18);
  ([Dec 50000000000000000 17; Dec 11270166537925830 17; Dec 11270166537925830 17], Dec 34293552812071332 18);
  ([Dec 50000000000000000 17; Dec 11270166537925830 17; Dec 50000000000000000 17], Dec 54869684499314120 18);
  ([Dec 50000000000000000 17; Dec 11270166537925830 17; Dec 88729833462074170 17], Dec 34293552812071332 18);
  ([Dec 88729833462074170 17; Dec 11270166537925830 17; Dec 11270166537925830 17], Dec 21433470507544586 18);
  ([Dec 88729833462074170 17; Dec 11270166537925830 17; Dec 50000000000000000 17], Dec 34293552812071332 18);
  ([Dec 88729833462074170 17; Dec 11270166537925830 17; Dec 88729833462074170 17], Dec 21433470507544586 18);
  ([Dec 11270166537925830 17; Dec 50000000000000000 17; Dec 11270166537925830 17], Dec 34293552812071332 18);
  ([Dec 11270166537925830 17; Dec 50000000000000000 17; Dec 50000000000000000 17], Dec 54869684499314120 18);
  ([Dec 11270166537925830 17; Dec 50000000000000000 17; Dec 88729833462074170 17], Dec 34293552812071332 18);
  ([Dec 50000000000000000 17; Dec 50000000000000000 17; Dec 11270166537925830 17], Dec 54869684499314127 18);
  ([Dec 50000000000000000 17; Dec 50000000000000000 17; Dec 50000000000000000 17], Dec 87791495198902600 18);
  ([Dec 50000000000000000 17; Dec 50000000000000000 17; Dec 88729833462074170 17], Dec 54869684499314127 18);
  ([Dec 88729833462074170 17; Dec 50000000000000000 17; Dec 11270166537925830 17], Dec 34293552812071332 18);
  ([Dec 88729833462074170 17; Dec 50000000000000000 17; Dec 50000000000000000 17], Dec 54869684499314120 18);
  ([Dec 88729833462074170 17; Dec 50000000000000000 17; Dec 88729833462074170 17], Dec 34293552812071332 18);
  ([Dec 11270166537925830 17; Dec 88729833462074170 17; Dec 11270166537925830 17], Dec 21433470507544586 18);
  ([Dec 11270166537925830 17; Dec 88729833462074170 17; Dec 50000000000000000 17], Dec 34293552812071332 18);
  ([Dec 11270166537925830 17; Dec 88729833462074170 17; Dec 88729833462074170 17], Dec 21433470507544586 18);
  ([Dec 50000000000000000 17; Dec 88729833462074170 17; Dec 11270166537925830 17], Dec 34293552812071332 18);
  ([Dec 50000000000000000 17; Dec 88729833462074170 17; Dec 50000000000000000 17], Dec 54869684499314120 18);
  ([Dec 50000000000000000 17; Dec 88729833462074170 17; Dec 88729833462074170 17], Dec 34293552812071332 18);
  ([Dec 88729833462074170 17; Dec 88729833462074170 17; Dec 11270166537925830 17], Dec 21433470507544586 18);
  ([Dec 88729833462074170 17; Dec 88729833462074170 17; Dec 50000000000000000 17], Dec 34293552812071332 18);
  ([Dec 88729833462074170 17; Dec 88729833462074170 17; Dec 88729833462074170 17], Dec 21433470507544586 18)].

(** FillPointsAndWeights, order 6, 7: Quadrature_Gauss3D_Hexahedron.cpp:188-447. *)
Definition Hexahedron_7 : rule := Rule false [
  ([Dec 69431844202973714 18; Dec 69431844202973714 18; Dec 69431844202973714 18], Dec 52614346863164314 19);
  ([Dec 69431844202973714 18; Dec 69431844202973714 18; Dec 33000947820757187 17], Dec 98639394743838173 19);
  ([Dec 69431844202973714 18; Dec 69431844202973714 18; Dec 66999052179242813 17], Dec 98639394743838173 19);
  ([Dec 69431844202973714 18; Dec 69431844202973714 18; Dec 93056815579702623 17], Dec 52614346863164314 19);
  ([Dec 33000947820757187 17; Dec 69431844202973714 18; Dec 69431844202973714 18], Dec 98639394743838173 19);
  ([Dec 33000947820757187 17; Dec 69431844202973714 18; Dec 33000947820757187 17], Dec 18492542007097660 18);
  ([Dec 33000947820757187 17; Dec 69431844202973714 18; Dec 66999052179242813 17], Dec 18492542007097660 18);
  ([Dec 33000947820757187 17; Dec 69431844202973714 18; Dec 93056815579702623 17], Dec 98639394743838173 19);
  ([Dec 66999052179242813 17; Dec 69431844202973714 18; Dec 69431844202973714 18], Dec 98639394743838173 19);
  ([Dec 66999052179242813 17; Dec 69431844202973714 18; Dec 33000947820757187 17], Dec 18492542007097660 18);
  ([Dec 66999052179242813 17; Dec 69431844202973714 18; Dec 66999052179242813 17], Dec 18492542007097660 18);
  ([Dec 66999052179242813 17; Dec 69431844202973714 18; Dec 93056815579702623 17], Dec 98639394743838173 19);
  ([Dec 93056815579702623 17; Dec 69431844202973714 18; Dec 69431844202973714 18], Dec 52614346863164314 19);
  ([Dec 93056815579702623 17; Dec 69431844202973714 18; Dec 33000947820757187 17], Dec 98639394743838173 19);
  ([Dec 93056815579702623 17; Dec 69431844202973714 18; Dec 66999052179242813 17], Dec 98639394743838173 19);
  ([Dec 93056815579702623 17; Dec 69431844202973714 18; Dec 93056815579702623 17], Dec 52614346863164314 19);
  ([Dec 69431844202973714 18; Dec 33000947820757187 17; Dec 69431844202973714 18], Dec 98639394743838173 19);
  ([Dec 69431844202973714 18; Dec 33000947820757187 17; Dec 33000947820757187 17], Dec 18492542007097660 18);
  ([Dec 69431844202973714 18; Dec 33000947820757187 17; Dec 66999052179242813 17], Dec 18492542007097660 18);
  ([Dec 69431844202973714 18; Dec 33000947820757187 17; Dec 93056815579702623 17], Dec 98639394743838173 19);
  ([Dec 33000947820757187 17; Dec 33000947820757187 17; Dec 69431844202973714 18], Dec 18492542007097660 18);
  ([Dec 33000947820757187 17; Dec 33000947820757187 17; Dec 33000947820757187 17], Dec 34669120869239116 18);
  ([Dec 33000947820757187 17; Dec 33000947820757187 17; Dec 66999052179242813 17], Dec 34669120869239116 18);
  ([Dec 33000947820757187 17; Dec 33000947820757187 17; Dec 93056815579702623 17], Dec 18492542007097660 18);
  ([Dec 66999052179242813 17; Dec 33000947820757187 17; Dec 69431844202973714 18], Dec 18492542007097660 18);
  ([Dec 66999052179242813 17; Dec 33000947820757187 17; Dec 33000947820757187 17], Dec 34669120869239116 18);
  ([Dec 66999052179242813 17; Dec 33000947820757187 17; Dec 66999052179242813 17], Dec 34669120869239116 18);
  ([Dec 66999052179242813 17; Dec 33000947820757187 17; Dec 93056815579702623 17], Dec 18492542007097660 18);
  ([Dec 93056815579702623 17; Dec 33000947820757187 17; Dec 69431844202973714 18], Dec 98639394743838173 19);
  ([Dec 93056815579702623 17; Dec 33000947820757187 17; Dec 33000947820757187 17], Dec 18492542007097660 18);
  ([Dec 93056815579702623 17; Dec 33000947820757187 17; Dec 66999052179242813 17], Dec 18492542007097660 18);
  ([Dec 93056815579702623 17; Dec 33000947820757187 17; Dec 93056815579702623 17], Dec 98639394743838173 19);
  ([Dec 69431844202973714 18; Dec 66999052179242813 17; Dec 69431844202973714 18], Dec 98639394743838173 19);
  ([Dec 69431844202973714 18; Dec 66999052179242813 17; Dec 33000947820757187 17], Dec 18492542007097660 18);
  ([Dec 69431844202973714 18; Dec 66999052179242813 17; Dec 66999052179242813 17], Dec 18492542007097660 18);
  ([Dec 69431844202973714 18; Dec 66999052179242813 17; Dec 93056815579702623 17], Dec 98639394743838173 19);
  ([Dec 33000947820757187 17; Dec 66999052179242813 17; Dec 69431844202973714 18], Dec 18492542007097660 18);
  ([Dec 33000947820757187 17; Dec 66999052179242813 17; Dec 33000947820757187 17], Dec 34669120869239116 18);
  ([Dec 33000947820757187 17; Dec 66999052179242813 17; Dec 66999052179242813 17], Dec 34669120869239116 18);
  ([Dec 33000947820757187 17; Dec 66999052179242813 17; Dec 93056815579702623 17], Dec 18492542007097660 18);
  ([Dec 66999052179242813 17; Dec 66999052179242813 17; Dec 69431844202973714 18], Dec 18492542007097660 18);
  ([Dec 66999052179242813 17; Dec 66999052179242813 17; Dec 33000947820757187 17], Dec 34669120869239116 18);
  ([Dec 66999052179242813 17; Dec 66999052179242813 17; Dec 66999052179242813 17], Dec 34669120869239116 18);
  ([Dec 66999052179242813 17; Dec 66999052179242813 17; Dec 93056815579702623 17], Dec 18492542007097660 18);
  ([Dec 93056815579702623 17; Dec 66999052179242813 17; Dec 69431844202973714 18], Dec 98639394743838173 19);
  ([Dec 93056815579702623 17; Dec 66999052179242813 17; Dec 33000947820757187 17], Dec 18492542007097660 18);
  ([Dec 93056815579702623 17; Dec 66999052179242813 17; Dec 66999052179242813 17], Dec 18492542007097660 18);
  ([Dec 93056815579702623 17; Dec 66999052179242813 17; Dec 93056815579702623 17], Dec 98639394743838173 19);
  ([Dec 69431844202973714 18; Dec 93056815579702623 17; Dec 69431844202973714 18], Dec 52614346863164314 19);
  ([Dec 69431844202973714 18; Dec 93056815579702623 17; Dec 33000947820757187 17], Dec 98639394743838173 19);
  ([Dec 69431844202973714 18; Dec 93056815579702623 17; Dec 66999052179242813 17], Dec 98639394743838173 19);
  ([Dec 69431844202973714 18; Dec 93056815579702623 17; Dec 93056815579702623 17], Dec 52614346863164314 19);
  ([Dec 33000947820757187 17; Dec 93056815579702623 17; Dec 69431844202973714 18], Dec 98639394743838173 19);
  ([Dec 33000947820757187 17; Dec 93056815579702623 17; Dec 33000947820757187 17], Dec 18492542007097660 18);
  ([Dec 33000947820757187 17; Dec 93056815579702623 17; Dec 66999052179242813 17], Dec 18492542007097660 18);
  ([Dec 33000947820757187 17; Dec 93056815579702623 17; Dec 93056815579702623 17], Dec 98639394743838173 19);
  ([Dec 66999052179242813 17; Dec 93056815579702623 17; Dec 69431844202973714 18], Dec 98639394743838173 19);
  ([Dec 66999052179242813 17; Dec 93056815579702623 17; Dec 33000947820757187 17], Dec 18492542007097660 18);
  ([Dec 66999052179242813 17; Dec 93056815579702623 17; Dec 66999052179242813 17], Dec 18492542007097660 18);
  ([Dec 66999052179242813 17; Dec 93056815579702623 17; Dec 93056815579702623 17], Dec 98639394743838173 19);
  ([Dec 93056815579702623 17; Dec 93056815579702623 17; Dec 69431844202973714 18], Dec 52614346863164314 19);
  ([Dec 93056815579702623 17; Dec 93056815579702623 17; Dec 33000947820757187 17], Dec 98639394743838173 19);
  ([Dec 93056815579702623 17; Dec 93056815579702623 17; Dec 66999052179242813 17], Dec 98639394743838173 19);
  ([Dec 93056815579702623 17; Dec 93056815579702623 17; Dec 93056815579702623 17], Dec 52614346863164314 19)].

(** FillPointsAndWeights, order 8, 9: Quadrature_Gauss3D_Hexahedron.cpp:450-953. *)
Definition Hexahedron_9 : rule := Rule false [
  ([Dec 46910077030668018 18; Dec 46910077030668018 18; Dec 46910077030668018 18], Dec 16624670525790810 19);
  ([Dec 46910077030668018 18; Dec 46910077030668018 18; Dec 23076534494715845 17], Dec 33584385956714805 19);
  ([Dec 46910077030668018 18; Dec 46910077030668018 18; Dec 50000000000000000 17], Dec 39917759191060364 19);
  ([Dec 46910077030668018 18; Dec 46910077030668018 18; Dec 76923465505284150 17], Dec 33584385956714805 19);
  ([Dec 46910077030668018 18; Dec 46910077030668018 18; Dec 95308992296933193 17], Dec 16624670525790810 19);
  ([Dec 23076534494715845 17; Dec 46910077030668018 18; Dec 46910077030668018 18], Dec 33584385956714805 19);
  ([Dec 23076534494715845 17; Dec 46910077030668018 18; Dec 23076534494715845 17], Dec 67845614043285200 19);
  ([Dec 23076534494715845 17; Dec 46910077030668018 18; Dec 50000000000000000 17], Dec 80640000000000000 19);
  ([Dec 23076534494715845 17; Dec 46910077030668018 18; Dec 76923465505284150 17], Dec 67845614043285200 19);
  ([Dec 23076534494715845 17; Dec 46910077030668018 18; Dec 95308992296933193 17], Dec 33584385956714805 19);
  ([Dec 50000000000000000 17; Dec 46910077030668018 18; Dec 46910077030668018 18], Dec 39917759191060364 19);
  ([Dec 50000000000000000 17; Dec 46910077030668018 18; Dec 23076534494715845 17], Dec 80640000000000000 19);
  ([Dec 50000000000000000 17; Dec 46910077030668018 18; Dec 50000000000000000 17], Dec 95847162586681529 19);
  ([Dec 50000000000000000 17; Dec 46910077030668018 18; Dec 76923465505284150 17], Dec 80640000000000000 19);
  ([Dec 50000000000000000 17; Dec 46910077030668018 18; Dec 95308992296933193 17], Dec 39917759191060364 19);
  ([Dec 76923465505284150 17; Dec 46910077030668018 18; Dec 46910077030668018 18], Dec 33584385956714805 19);
  ([Dec 76923465505284150 17; Dec 46910077030668018 18; Dec 23076534494715845 17], Dec 67845614043285200 19);
  ([Dec 76923465505284150 17; Dec 46910077030668018 18; Dec 50000000000000000 17], Dec 80640000000000000 19);
  ([Dec 76923465505284150 17; Dec 46910077030668018 18; Dec 76923465505284150 17], Dec 67845614043285200 19);
  ([Dec 76923465505284150 17; Dec 46910077030668018 18; Dec 95308992296933193 17], Dec 33584385956714805 19);
  ([Dec 95308992296933193 17; Dec 46910077030668018 18; Dec 46910077030668018 18], Dec 16624670525790810 19);
  ([Dec 95308992296933193 17; Dec 46910077030668018 18; Dec 23076534494715845 17], Dec 33584385956714805 19);
  ([Dec 95308992296933193 17; Dec 46910077030668018 18; Dec 50000000000000000 17], Dec 39917759191060364 19);
  ([Dec 95308992296933193 17; Dec 46910077030668018 18; Dec 76923465505284150 17], Dec 33584385956714805 19);
  ([Dec 95308992296933193 17; Dec 46910077030668018 18; Dec 95308992296933193 17], Dec 16624670525790810 19);
  ([Dec 46910077030668018 18; Dec 23076534494715845 17; Dec 46910077030668018 18], Dec 33584385956714805 19);
  ([Dec 46910077030668018 18; Dec 23076534494715845 17; Dec 23076534494715845 17], Dec 67845614043285200 19);
  ([Dec 46910077030668018 18; Dec 23076534494715845 17; Dec 50000000000000000 17], Dec 80640000000000000 19);
  ([Dec 46910077030668018 18; Dec 23076534494715845 17; Dec 76923465505284150 17], Dec 67845614043285200 19);
  ([Dec 46910077030668018 18; Dec 23076534494715845 17; Dec 95308992296933193 17], Dec 33584385956714805 19);
  ([Dec 23076534494715845 17; Dec 23076534494715845 17; Dec 46910077030668018 18], Dec 67845614043285200 19);
  ([Dec 23076534494715845 17; Dec 23076534494715845 17; Dec 23076534494715845 17], Dec 13705855306817352 18);
  ([Dec 23076534494715845 17; Dec 23076534494715845 17; Dec 50000000000000000 17], Dec 16290517633706036 18);
  ([Dec 23076534494715845 17; Dec 23076534494715845 17; Dec 76923465505284150 17], Dec 13705855306817352 18);
  ([Dec 23076534494715845 17; Dec 23076534494715845 17; Dec 95308992296933193 17], Dec 67845614043285200 19);
  ([Dec 50000000000000000 17; Dec 23076534494715845 17; Dec 46910077030668018 18], Dec 80640000000000000 19);
  ([Dec 50000000000000000 17; Dec 23076534494715845 17; Dec 23076534494715845 17], Dec 16290517633706033 18);
  ([Dec 50000000000000000 17; Dec 23076534494715845 17; Dec 50000000000000000 17], Dec 19362597870275604 18);
  ([Dec 50000000000000000 17; Dec 23076534494715845 17; Dec 76923465505284150 17], Dec 16290517633706033 18);
  ([Dec 50000000000000000 17; Dec 23076534494715845 17; Dec 95308992296933193 17], Dec 80640000000000000 19);
  ([Dec 76923465505284150 17; Dec 23076534494715845 17; Dec 46910077030668018 18], Dec 67845614043285200 19);
  ([Dec 76923465505284150 17; Dec 23076534494715845 17; Dec 23076534494715845 17], Dec 13705855306817352 18);
  ([Dec 76923465505284150 17; Dec 23076534494715845 17; Dec 50000000000000000 17], Dec 16290517633706036 18);
  ([Dec 76923465505284150 17; Dec 23076534494715845 17; Dec 76923465505284150 17], Dec 13705855306817352 18);
  ([Dec 76923465505284150 17; Dec 23076534494715845 17; Dec 95308992296933193 17], Dec 67845614043285200 19);
  ([Dec 95308992296933193 17; Dec 23076534494715845 17; Dec 46910077030668018 18], Dec 33584385956714805 19);
  ([Dec 95308992296933193 17; Dec 23076534494715845 17; Dec 23076534494715845 17], Dec 67845614043285200 19);
  ([Dec 95308992296933193 17; Dec 23076534494715845 17; Dec 50000000000000000 17], Dec 80640000000000000 19);
  ([Dec 95308992296933193 17; Dec 23076534494715845 17; Dec 76923465505284150 17], Dec 67845614043285200 19);
  ([Dec 95308992296933193 17; Dec 23076534494715845 17; Dec 95308992296933193 17], Dec 33584385956714805 19);
  ([Dec 46910077030668018 18; Dec 50000000000000000 17; Dec 46910077030668018 18], Dec 39917759191060364 19);
  ([Dec 46910077030668018 18; Dec 50000000000000000 17; Dec 23076534494715845 17], Dec 80640000000000000 19);
  ([Dec 46910077030668018 18; Dec 50000000000000000 17; Dec 50000000000000000 17], Dec 95847162586681529 19);
  ([Dec 46910077030668018 18; Dec 50000000000000000 17; Dec 76923465505284150 17], Dec 80640000000000000 19);
  ([Dec 46910077030668018 18; Dec 50000000000000000 17; Dec 95308992296933193 17], Dec 39917759191060364 19);
  ([Dec 23076534494715845 17; Dec 50000000000000000 17; Dec 46910077030668018 18], Dec 80640000000000000 19);
  ([Dec 23076534494715845 17; Dec 50000000000000000 17; Dec 23076534494715845 17], Dec 16290517633706033 18);
  ([Dec 23076534494715845 17; Dec 50000000000000000 17; Dec 50000000000000000 17], Dec 19362597870275604 18);
  ([Dec 23076534494715845 17; Dec 50000000000000000 17; Dec 76923465505284150 17], Dec 16290517633706033 18);
  ([Dec 23076534494715845 17; Dec 50000000000000000 17; Dec 95308992296933193 17], Dec 80640000000000000 19);
  ([Dec 50000000000000000 17; Dec 50000000000000000 17; Dec 46910077030668018 18], Dec 95847162586681529 19);
  ([Dec 50000000000000000 17; Dec 50000000000000000 17; Dec 23076534494715845 17], Dec 19362597870275607 18);
  ([Dec 50000000000000000 17; Dec 50000000000000000 17; Dec 50000000000000000 17], Dec 23014013717421126 18);
  ([Dec 50000000000000000 17; Dec 50000000000000000 17; Dec 76923465505284150 17], Dec 19362597870275607 18);
  ([Dec 50000000000000000 17; Dec 50000000000000000 17; Dec 95308992296933193 17], Dec 95847162586681529 19);
  ([Dec 76923465505284150 17; Dec 50000000000000000 17; Dec 46910077030668018 18], Dec 80640000000000000 19);
  ([Dec 76923465505284150 17; Dec 50000000000000000 17; Dec 23076534494715845 17], Dec 16290517633706033 18);
  ([Dec 76923465505284150 17; Dec 50000000000000000 17; Dec 50000000000000000 17], Dec 19362597870275604 18);
  ([Dec 76923465505284150 17; Dec 50000000000000000 17; Dec 76923465505284150 17], Dec 16290517633706033 18);
  ([Dec 76923465505284150 17; Dec 50000000000000000 17; Dec 95308992296933193 17], Dec 80640000000000000 19);
  ([Dec 95308992296933193 17; Dec 50000000000000000 17; Dec 46910077030668018 18], Dec 39917759191060364 19);
  ([Dec 95308992296933193 17; Dec 50000000000000000 17; Dec 23076534494715845 17], Dec 80640000000000000 19);
  ([Dec 95308992296933193 17; Dec 50000000000000000 17; Dec 50000000000000000 17], Dec 95847162586681529 19);
  ([Dec 95308992296933193 17; Dec 50000000000000000 17; Dec 76923465505284150 17], Dec 80640000000000000 19);
  ([Dec 95308992296933193 17; Dec 50000000000000000 17; Dec 95308992296933193 17], Dec 39917759191060364 19);
  ([Dec 46910077030668018 18; Dec 76923465505284150 17; Dec 46910077030668018 18], Dec 33584385956714805 19);
  ([Dec 46910077030668018 18; Dec 76923465505284150 17; Dec 23076534494715845 17], Dec 67845614043285200 19);
  ([Dec 46910077030668018 18; Dec 76923465505284150 17; Dec 50000000000000000 17], Dec 80640000000000000 19);
  ([Dec 46910077030668018 18; Dec 76923465505284150 17; Dec 76923465505284150 17], Dec 67845614043285200 19);
  ([Dec 46910077030668018 18; Dec 76923465505284150 17; Dec 95308992296933193 17], Dec 33584385956714805 19);
  ([Dec 23076534494715845 17; Dec 76923465505284150 17; Dec 46910077030668018 18], Dec 67845614043285200 19);
  ([Dec 23076534494715845 17; Dec 76923465505284150 17; Dec 23076534494715845 17], Dec 13705855306817352 18);
  ([Dec 23076534494715845 17; Dec 76923465505284150 17; Dec 50000000000000000 17], Dec 16290517633706036 18);
  ([Dec 23076534494715845 17; Dec 76923465505284150 17; Dec 76923465505284150 17], Dec 13705855306817352 18);
  ([Dec 23076534494715845 17; Dec 76923465505284150 17; Dec 95308992296933193 17], Dec 67845614043285200 19);
  ([Dec 50000000000000000 17; Dec 76923465505284150 17; Dec 46910077030668018 18], Dec 80640000000000000 19);
  ([Dec 50000000000000000 17; Dec 76923465505284150 17; Dec 23076534494715845 17], Dec 16290517633706033 18);
  ([Dec 50000000000000000 17; Dec 76923465505284150 17; Dec 50000000000000000 17], Dec 19362597870275604 18);
  ([Dec 50000000000000000 17; Dec 76923465505284150 17; Dec 76923465505284150 17], Dec 16290517633706033 18);
  ([Dec 50000000000000000 17; Dec 76923465505284150 17; Dec 95308992296933193 17], Dec 80640000000000000 19);
  ([Dec 76923465505284150 17; Dec 76923465505284150 17; Dec 46910077030668018 18], Dec 67845614043285200 19);
  ([Dec 76923465505284150 17; Dec 76923465505284150 17; Dec 23076534494715845 17], Dec 13705855306817352 18);
  ([Dec 76923465505284150 17; Dec 76923465505284150 17; Dec 50000000000000000 17], Dec 16290517633706036 18);
  ([Dec 76923465505284150 17; Dec 76923465505284150 17; Dec 76923465505284150 17], Dec 13705855306817352 18);
  ([Dec 76923465505284150 17; Dec 76923465505284150 17; Dec 95308992296933193 17], Dec 67845614043285200 19);
  ([Dec 95308992296933193 17; Dec 76923465505284150 17; Dec 46910077030668018 18], Dec 33584385956714805 19);
  ([Dec 95308992296933193 17; Dec 76923465505284150 17; Dec 23076534494715845 17], Dec 67845614043285200 19);
  ([Dec 95308992296933193 17; Dec 76923465505284150 17; Dec 50000000000000000 17], Dec 80640000000000000 19);
  ([Dec 95308992296933193 17; Dec 76923465505284150 17; Dec 76923465505284150 17], Dec 67845614043285200 19);
  ([Dec 95308992296933193 17; Dec 76923465505284150 17; Dec 95308992296933193 17], Dec 33584385956714805 19);
  ([Dec 46910077030668018 18; Dec 95308992296933193 17; Dec 46910077030668018 18], Dec 16624670525790810 19);
  ([Dec 46910077030668018 18; Dec 95308992296933193 17; Dec 23076534494715845 17], Dec 33584385956714805 19);
  ([Dec 46910077030668018 18; Dec 95308992296933193 17; Dec 50000000000000000 17], Dec 39917759191060364 19);
  ([Dec 46910077030668018 18; Dec 95308992296933193 17; Dec 76923465505284150 17], Dec 33584385956714805 19);
  ([Dec 46910077030668018 18; Dec 95308992296933193 17; Dec 95308992296933193 17], Dec 16624670525790810 19);
  ([Dec 23076534494715845 17; Dec 95308992296933193 17; Dec 46910077030668018 18], Dec 33584385956714805 19);
  ([Dec 23076534494715845 17; Dec 95308992296933193 17; Dec 23076534494715845 17], Dec 67845614043285200 19);
  ([Dec 23076534494715845 17; Dec 95308992296933193 17; Dec 50000000000000000 17], Dec 80640000000000000 19);
  ([Dec 23076534494715845 17; Dec 95308992296933193 17; Dec 76923465505284150 17], Dec 67845614043285200 19);
  ([Dec 23076534494715845 17; Dec 95308992296933193 17; Dec 95308992296933193 17], Dec 33584385956714805 19);
  ([Dec 50000000000000000 17; Dec 95308992296933193 17; Dec 46910077030668018 18], Dec 39917759191060364 19);
  ([Dec 50000000000000000 17; Dec 95308992296933193 17; Dec 23076534494715845 17], Dec 80640000000000000 19);
  ([Dec 50000000000000000 17; Dec 95308992296933193 17; Dec 50000000000000000 17], Dec 95847162586681529 19);
  ([Dec 50000000000000000 17; Dec 95308992296933193 17; Dec 76923465505284150 17], Dec 80640000000000000 19);
  ([Dec 50000000000000000 17; Dec 95308992296933193 17; Dec 95308992296933193 17], Dec 39917759191060364 19);
  ([Dec 76923465505284150 17; Dec 95308992296933193 17; Dec 46910077030668018 18], Dec 33584385956714805 19);
  ([Dec 76923465505284150 17; Dec 95308992296933193 17; Dec 23076534494715845 17], Dec 67845614043285200 19);
  ([Dec 76923465505284150 17; Dec 95308992296933193 17; Dec 50000000000000000 17], Dec 80640000000000000 19);
  ([Dec 76923465505284150 17; Dec 95308992296933193 17; Dec 76923465505284150 17], Dec 67845614043285200 19);
  ([Dec 76923465505284150 17; Dec 95308992296933193 17; Dec 95308992296933193 17], Dec 33584385956714805 19);
  ([Dec 95308992296933193 17; Dec 95308992296933193 17; Dec 46910077030668018 18], Dec 16624670525790810 19);
  ([Dec 95308992296933193 17; Dec 95308992296933193 17; Dec 23076534494715845 17], Dec 33584385956714805 19);
  ([Dec 95308992296933193 17; Dec 95308992296933193 17; Dec 50000000000000000 17], Dec 39917759191060364 19);
  ([Dec 95308992296933193 17; Dec 95308992296933193 17; Dec 76923465505284150 17], Dec 33584385956714805 19);
  ([Dec 95308992296933193 17; Dec 95308992296933193 17; Dec 95308992296933193 17], Dec 16624670525790810 19)].

(** FillPointsAndWeights, order 10, 11: Quadrature_Gauss3D_Hexahedron.cpp:956-1823. *)
Definition Hexahedron_11 : rule := Rule false [
  ([Dec 33765242898423975 18; Dec 33765242898423975 18; Dec 33765242898423975 18], Dec 62859131195456359 20);
  ([Dec 33765242898423975 18; Dec 33765242898423975 18; Dec 16939530676686776 17], Dec 13236378952942544 19);
  ([Dec 33765242898423975 18; Dec 33765242898423975 18; Dec 38069040695840156 17], Dec 17167810038737324 19);
  ([Dec 33765242898423975 18; Dec 33765242898423975 18; Dec 61930959304159849 17], Dec 17167810038737324 19);
  ([Dec 33765242898423975 18; Dec 33765242898423975 18; Dec 83060469323313224 17], Dec 13236378952942544 19);
  ([Dec 33765242898423975 18; Dec 33765242898423975 18; Dec 96623475710157603 17], Dec 62859131195456359 20);
  ([Dec 16939530676686776 17; Dec 33765242898423975 18; Dec 33765242898423975 18], Dec 13236378952942544 19);
  ([Dec 16939530676686776 17; Dec 33765242898423975 18; Dec 16939530676686776 17], Dec 27872120478586002 19);
  ([Dec 16939530676686776 17; Dec 33765242898423975 18; Dec 38069040695840156 17], Dec 36150617283950619 19);
  ([Dec 16939530676686776 17; Dec 33765242898423975 18; Dec 61930959304159849 17], Dec 36150617283950619 19);
  ([Dec 16939530676686776 17; Dec 33765242898423975 18; Dec 83060469323313224 17], Dec 27872120478586002 19);
  ([Dec 16939530676686776 17; Dec 33765242898423975 18; Dec 96623475710157603 17], Dec 13236378952942544 19);
  ([Dec 38069040695840156 17; Dec 33765242898423975 18; Dec 33765242898423975 18], Dec 17167810038737322 19);
  ([Dec 38069040695840156 17; Dec 33765242898423975 18; Dec 16939530676686776 17], Dec 36150617283950619 19);
  ([Dec 38069040695840156 17; Dec 33765242898423975 18; Dec 38069040695840156 17], Dec 46887969324570337 19);
  ([Dec 38069040695840156 17; Dec 33765242898423975 18; Dec 61930959304159849 17], Dec 46887969324570337 19);
  ([Dec 38069040695840156 17; Dec 33765242898423975 18; Dec 83060469323313224 17], Dec 36150617283950619 19);
  ([Dec 38069040695840156 17; Dec 33765242898423975 18; Dec 96623475710157603 17], Dec 17167810038737322 19);
  ([Dec 61930959304159849 17; Dec 33765242898423975 18; Dec 33765242898423975 18], Dec 17167810038737322 19);
  ([Dec 61930959304159849 17; Dec 33765242898423975 18; Dec 16939530676686776 17], Dec 36150617283950619 19);
  ([Dec 61930959304159849 17; Dec 33765242898423975 18; Dec 38069040695840156 17], Dec 46887969324570337 19);
  ([Dec 61930959304159849 17; Dec 33765242898423975 18; Dec 61930959304159849 17], Dec 46887969324570337 19);
  ([Dec 61930959304159849 17; Dec 33765242898423975 18; Dec 83060469323313224 17], Dec 36150617283950619 19);
  ([Dec 61930959304159849 17; Dec 33765242898423975 18; Dec 96623475710157603 17], Dec 17167810038737322 19);
  ([Dec 83060469323313224 17; Dec 33765242898423975 18; Dec 33765242898423975 18], Dec 13236378952942544 19);
  ([Dec 83060469323313224 17; Dec 33765242898423975 18; Dec 16939530676686776 17], Dec 27872120478586002 19);
  ([Dec 83060469323313224 17; Dec 33765242898423975 18; Dec 38069040695840156 17], Dec 36150617283950619 19);
  ([Dec 83060469323313224 17; Dec 33765242898423975 18; Dec 61930959304159849 17], Dec 36150617283950619 19);
  ([Dec 83060469323313224 17; Dec 33765242898423975 18; Dec 83060469323313224 17], Dec 27872120478586002 19);
  ([Dec 83060469323313224 17; Dec 33765242898423975 18; Dec 96623475710157603 17], Dec 13236378952942544 19);
  ([Dec 96623475710157603 17; Dec 33765242898423975 18; Dec 33765242898423975 18], Dec 62859131195456359 20);
  ([Dec 96623475710157603 17; Dec 33765242898423975 18; Dec 16939530676686776 17], Dec 13236378952942544 19);
  ([Dec 96623475710157603 17; Dec 33765242898423975 18; Dec 38069040695840156 17], Dec 17167810038737324 19);
  ([Dec 96623475710157603 17; Dec 33765242898423975 18; Dec 61930959304159849 17], Dec 17167810038737324 19);
  ([Dec 96623475710157603 17; Dec 33765242898423975 18; Dec 83060469323313224 17], Dec 13236378952942544 19);
  ([Dec 96623475710157603 17; Dec 33765242898423975 18; Dec 96623475710157603 17], Dec 62859131195456359 20);
  ([Dec 33765242898423975 18; Dec 16939530676686776 17; Dec 33765242898423975 18], Dec 13236378952942544 19);
  ([Dec 33765242898423975 18; Dec 16939530676686776 17; Dec 16939530676686776 17], Dec 27872120478586002 19);
  ([Dec 33765242898423975 18; Dec 16939530676686776 17; Dec 38069040695840156 17], Dec 36150617283950619 19);
  ([Dec 33765242898423975 18; Dec 16939530676686776 17; Dec 61930959304159849 17], Dec 36150617283950619 19);
  ([Dec 33765242898423975 18; Dec 16939530676686776 17; Dec 83060469323313224 17], Dec 27872120478586002 19);
  ([Dec 33765242898423975 18; Dec 16939530676686776 17; Dec 96623475710157603 17], Dec 13236378952942544 19);
  ([Dec 16939530676686776 17; Dec 16939530676686776 17; Dec 33765242898423975 18], Dec 27872120478586002 19);
  ([Dec 16939530676686776 17; Dec 16939530676686776 17; Dec 16939530676686776 17], Dec 58690908044764963 19);
  ([Dec 16939530676686776 17; Dec 16939530676686776 17; Dec 38069040695840156 17], Dec 76123112211858327 19);
  ([Dec 16939530676686776 17; Dec 16939530676686776 17; Dec 61930959304159849 17], Dec 76123112211858327 19);
  ([Dec 16939530676686776 17; Dec 16939530676686776 17; Dec 83060469323313224 17], Dec 58690908044764963 19);
  ([Dec 16939530676686776 17; Dec 16939530676686776 17; Dec 96623475710157603 17], Dec 27872120478586002 19);
  ([Dec 38069040695840156 17; Dec 16939530676686776 17; Dec 33765242898423975 18], Dec 36150617283950623 19);
  ([Dec 38069040695840156 17; Dec 16939530676686776 17; Dec 16939530676686776 17], Dec 76123112211858336 19);
  ([Dec 38069040695840156 17; Dec 16939530676686776 17; Dec 38069040695840156 17], Dec 98732979363675838 19);
  ([Dec 38069040695840156 17; Dec 16939530676686776 17; Dec 61930959304159849 17], Dec 98732979363675838 19);
  ([Dec 38069040695840156 17; Dec 16939530676686776 17; Dec 83060469323313224 17], Dec 76123112211858336 19);
  ([Dec 38069040695840156 17; Dec 16939530676686776 17; Dec 96623475710157603 17], Dec 36150617283950623 19);
  ([Dec 61930959304159849 17; Dec 16939530676686776 17; Dec 33765242898423975 18], Dec 36150617283950623 19);
  ([Dec 61930959304159849 17; Dec 16939530676686776 17; Dec 16939530676686776 17], Dec 76123112211858336 19);
  ([Dec 61930959304159849 17; Dec 16939530676686776 17; Dec 38069040695840156 17], Dec 98732979363675838 19);
  ([Dec 61930959304159849 17; Dec 16939530676686776 17; Dec 61930959304159849 17], Dec 98732979363675838 19);
  ([Dec 61930959304159849 17; Dec 16939530676686776 17; Dec 83060469323313224 17], Dec 76123112211858336 19);
  ([Dec 61930959304159849 17; Dec 16939530676686776 17; Dec 96623475710157603 17], Dec 36150617283950623 19);
  ([Dec 83060469323313224 17; Dec 16939530676686776 17; Dec 33765242898423975 18], Dec 27872120478586002 19);
  ([Dec 83060469323313224 17; Dec 16939530676686776 17; Dec 16939530676686776 17], Dec 58690908044764963 19);
  ([Dec 83060469323313224 17; Dec 16939530676686776 17; Dec 38069040695840156 17], Dec 76123112211858327 19);
  ([Dec 83060469323313224 17; Dec 16939530676686776 17; Dec 61930959304159849 17], Dec 76123112211858327 19);
  ([Dec 83060469323313224 17; Dec 16939530676686776 17; Dec 83060469323313224 17], Dec 58690908044764963 19);
  ([Dec 83060469323313224 17; Dec 16939530676686776 17; Dec 96623475710157603 17], Dec 27872120478586002 19);
  ([Dec 96623475710157603 17; Dec 16939530676686776 17; Dec 33765242898423975 18], Dec 13236378952942544 19);
  ([Dec 96623475710157603 17; Dec 16939530676686776 17; Dec 16939530676686776 17], Dec 27872120478586002 19);
  ([Dec 96623475710157603 17; Dec 16939530676686776 17; Dec 38069040695840156 17], Dec 36150617283950619 19);
  ([Dec 96623475710157603 17; Dec 16939530676686776 17; Dec 61930959304159849 17], Dec 36150617283950619 19);
  ([Dec 96623475710157603 17; Dec 16939530676686776 17; Dec 83060469323313224 17], Dec 27872120478586002 19);
  ([Dec 96623475710157603 17; Dec 16939530676686776 17; Dec 96623475710157603 17], Dec 13236378952942544 19);
  ([Dec 33765242898423975 18; Dec 38069040695840156 17; Dec 33765242898423975 18], Dec 17167810038737322 19);
  ([Dec 33765242898423975 18; Dec 38069040695840156 17; Dec 16939530676686776 17], Dec 36150617283950619 19);
  ([Dec 33765242898423975 18; Dec 38069040695840156 17; Dec 38069040695840156 17], Dec 46887969324570337 19);
  ([Dec 33765242898423975 18; Dec 38069040695840156 17; Dec 61930959304159849 17], Dec 46887969324570337 19);
  ([Dec 33765242898423975 18; Dec 38069040695840156 17; Dec 83060469323313224 17], Dec 36150617283950619 19);
  ([Dec 33765242898423975 18; Dec 38069040695840156 17; Dec 96623475710157603 17], Dec 17167810038737322 19);
  ([Dec 16939530676686776 17; Dec 38069040695840156 17; Dec 33765242898423975 18], Dec 36150617283950623 19);
  ([Dec 16939530676686776 17; Dec 38069040695840156 17; Dec 16939530676686776 17], Dec 76123112211858336 19);
  ([Dec 16939530676686776 17; Dec 38069040695840156 17; Dec 38069040695840156 17], Dec 98732979363675838 19);
  ([Dec 16939530676686776 17; Dec 38069040695840156 17; Dec 61930959304159849 17], Dec 98732979363675838 19);
  ([Dec 16939530676686776 17; Dec 38069040695840156 17; Dec 83060469323313224 17], Dec 76123112211858336 19);
  ([Dec 16939530676686776 17; Dec 38069040695840156 17; Dec 96623475710157603 17], Dec 36150617283950623 19);
  ([Dec 38069040695840156 17; Dec 38069040695840156 17; Dec 33765242898423975 18], Dec 46887969324570337 19);
  ([Dec 38069040695840156 17; Dec 38069040695840156 17; Dec 16939530676686776 17], Dec 98732979363675821 19);
  ([Dec 38069040695840156 17; Dec 38069040695840156 17; Dec 38069040695840156 17], Dec 12805836402087456 18);
  ([Dec 38069040695840156 17; Dec 38069040695840156 17; Dec 61930959304159849 17], Dec 12805836402087456 18);
  ([Dec 38069040695840156 17; Dec 38069040695840156 17; Dec 83060469323313224 17], Dec 98732979363675821 19);
  ([Dec 38069040695840156 17; Dec 38069040695840156 17; Dec 96623475710157603 17], Dec 46887969324570337 19);
  ([Dec 61930959304159849 17; Dec 38069040695840156 17; Dec 33765242898423975 18], Dec 46887969324570337 19);
  ([Dec 61930959304159849 17; Dec 38069040695840156 17; Dec 16939530676686776 17], Dec 98732979363675821 19);
  ([Dec 61930959304159849 17; Dec 38069040695840156 17; Dec 38069040695840156 17], Dec 12805836402087456 18);
  ([Dec 61930959304159849 17; Dec 38069040695840156 17; Dec 61930959304159849 17], Dec 12805836402087456 18);
  ([Dec 61930959304159849 17; Dec 38069040695840156 17; Dec 83060469323313224 17], Dec 98732979363675821 19);
  ([Dec 61930959304159849 17; Dec 38069040695840156 17; Dec 96623475710157603 17], Dec 46887969324570337 19);
  ([Dec 83060469323313224 17; Dec 38069040695840156 17; Dec 33765242898423975 18], Dec 36150617283950623 19);
  ([Dec 83060469323313224 17; Dec 38069040695840156 17; Dec 16939530676686776 17], Dec 76123112211858336 19);
  ([Dec 83060469323313224 17; Dec 38069040695840156 17; Dec 38069040695840156 17], Dec 98732979363675838 19);
  ([Dec 83060469323313224 17; Dec 38069040695840156 17; Dec 61930959304159849 17], Dec 98732979363675838 19);
  ([Dec 83060469323313224 17; Dec 38069040695840156 17; Dec 83060469323313224 17], Dec 76123112211858336 19);
  ([Dec 83060469323313224 17; Dec 38069040695840156 17; Dec 96623475710157603 17], Dec 36150617283950623 19);
  ([Dec 96623475710157603 17; Dec 38069040695840156 17; Dec 33765242898423975 18], Dec 17167810038737322 19);
  ([Dec 96623475710157603 17; Dec 38069040695840156 17; Dec 16939530676686776 17], Dec 36150617283950619 19);
  ([Dec 96623475710157603 17; Dec 38069040695840156 17; Dec 38069040695840156 17], Dec 46887969324570337 19);
  ([Dec 96623475710157603 17; Dec 38069040695840156 17; Dec 61930959304159849 17], Dec 46887969324570337 19);
  ([Dec 96623475710157603 17; Dec 38069040695840156 17; Dec 83060469323313224 17], Dec 36150617283950619 19);
  ([Dec 96623475710157603 17; Dec 38069040695840156 17; Dec 96623475710157603 17], Dec 17167810038737322 19);
  ([Dec 33765242898423975 18; Dec 61930959304159849 17; Dec 33765242898423975 18], Dec 17167810038737322 19);
  ([Dec 33765242898423975 18; Dec 61930959304159849 17; Dec 16939530676686776 17], Dec 36150617283950619 19);
  ([Dec 33765242898423975 18; Dec 61930959304159849 17; Dec 38069040695840156 17], Dec 46887969324570337 19);
  ([Dec 33765242898423975 18; Dec 61930959304159849 17; Dec 61930959304159849 17], Dec 46887969324570337 19);
  ([Dec 33765242898423975 18; Dec 61930959304159849 17; Dec 83060469323313224 17], Dec 36150617283950619 19);
  ([Dec 33765242898423975 18; Dec 61930959304159849 17; Dec 96623475710157603 17], Dec 17167810038737322 19);
  ([Dec 16939530676686776 17; Dec 61930959304159849 17; Dec 33765242898423975 18], Dec 36150617283950623 19);
  ([Dec 16939530676686776 17; Dec 61930959304159849 17; Dec 16939530676686776 17], Dec 76123112211858336 19);
  ([Dec 16939530676686776 17; Dec 61930959304159849 17; Dec 38069040695840156 17], Dec 98732979363675838 19);
  ([Dec 16939530676686776 17; Dec 61930959304159849 17; Dec 61930959304159849 17], Dec 98732979363675838 19);
  ([Dec 16939530676686776 17; Dec 61930959304159849 17; Dec 83060469323313224 17], Dec 76123112211858336 19);
  ([Dec 16939530676686776 17; Dec 61930959304159849 17; Dec 96623475710157603 17], Dec 36150617283950623 19);
  ([Dec 38069040695840156 17; Dec 61930959304159849 17; Dec 33765242898423975 18], Dec 46887969324570337 19);
  ([Dec 38069040695840156 17; Dec 61930959304159849 17; Dec 16939530676686776 17], Dec 98732979363675821 19);
  ([Dec 38069040695840156 17; Dec 61930959304159849 17; Dec 38069040695840156 17], Dec 12805836402087456 18);
  ([Dec 38069040695840156 17; Dec 61930959304159849 17; Dec 61930959304159849 17], Dec 12805836402087456 18);
  ([Dec 38069040695840156 17; Dec 61930959304159849 17; Dec 83060469323313224 17], Dec 98732979363675821 19);
  ([Dec 38069040695840156 17; Dec 61930959304159849 17; Dec 96623475710157603 17], Dec 46887969324570337 19);
  ([Dec 61930959304159849 17; Dec 61930959304159849 17; Dec 33765242898423975 18], Dec 46887969324570337 19);
  ([Dec 61930959304159849 17; Dec 61930959304159849 17; Dec 16939530676686776 17], Dec 98732979363675821 19);
  ([Dec 61930959304159849 17; Dec 61930959304159849 17; Dec 38069040695840156 17], Dec 12805836402087456 18);
  ([Dec 61930959304159849 17; Dec 61930959304159849 17; Dec 61930959304159849 17], Dec 12805836402087456 18);
  ([Dec 61930959304159849 17; Dec 61930959304159849 17; Dec 83060469323313224 17], Dec 98732979363675821 19);
  ([Dec 61930959304159849 17; Dec 61930959304159849 17; Dec 96623475710157603 17], Dec 46887969324570337 19);
  ([Dec 83060469323313224 17; Dec 61930959304159849 17; Dec 33765242898423975 18], Dec 36150617283950623 19);
  ([Dec 83060469323313224 17; Dec 61930959304159849 17; Dec 16939530676686776 17], Dec 76123112211858336 19);
  ([Dec 83060469323313224 17; Dec 61930959304159849 17; Dec 38069040695840156 17], Dec 98732979363675838 19);
  ([Dec 83060469323313224 17; Dec 61930959304159849 17; Dec 61930959304159849 17], Dec 98732979363675838 19);
  ([Dec 83060469323313224 17; Dec 61930959304159849 17; Dec 83060469323313224 17], Dec 76123112211858336 19);
  ([Dec 83060469323313224 17; Dec 61930959304159849 17; Dec 96623475710157603 17], Dec 36150617283950623 19);
  ([Dec 96623475710157603 17; Dec 61930959304159849 17; Dec 33765242898423975 18], Dec 17167810038737322 19);
  ([Dec 96623475710157603 17; Dec 61930959304159849 17; Dec 16939530676686776 17], Dec 36150617283950619 19);
  ([Dec 96623475710157603 17; Dec 61930959304159849 17; Dec 38069040695840156 17], Dec 46887969324570337 19);
  ([Dec 96623475710157603 17; Dec 61930959304159849 17; Dec 61930959304159849 17], Dec 46887969324570337 19);
  ([Dec 96623475710157603 17; Dec 61930959304159849 17; Dec 83060469323313224 17], Dec 36150617283950619 19);
  ([Dec 96623475710157603 17; Dec 61930959304159849 17; Dec 96623475710157603 17], Dec 17167810038737322 19);
  ([Dec 33765242898423975 18; Dec 83060469323313224 17; Dec 33765242898423975 18], Dec 13236378952942544 19);
  ([Dec 33765242898423975 18; Dec 83060469323313224 17; Dec 16939530676686776 17], Dec 27872120478586002 19);
  ([Dec 33765242898423975 18; Dec 83060469323313224 17; Dec 38069040695840156 17], Dec 36150617283950619 19);
  ([Dec 33765242898423975 18; Dec 83060469323313224 17; Dec 61930959304159849 17], Dec 36150617283950619 19);
  ([Dec 33765242898423975 18; Dec 83060469323313224 17; Dec 83060469323313224 17], Dec 27872120478586002 19);
  ([Dec 33765242898423975 18; Dec 83060469323313224 17; Dec 96623475710157603 17], Dec 13236378952942544 19);
  ([Dec 16939530676686776 17; Dec 83060469323313224 17; Dec 33765242898423975 18], Dec 27872120478586002 19);
  ([Dec 16939530676686776 17; Dec 83060469323313224 17; Dec 16939530676686776 17], Dec 58690908044764963 19);
  ([Dec 16939530676686776 17; Dec 83060469323313224 17; Dec 38069040695840156 17], Dec 76123112211858327 19);
  ([Dec 16939530676686776 17; Dec 83060469323313224 17; Dec 61930959304159849 17], Dec 76123112211858327 19);
  ([Dec 16939530676686776 17; Dec 83060469323313224 17; Dec 83060469323313224 17], Dec 58690908044764963 19);
  ([Dec 16939530676686776 17; Dec 83060469323313224 17; Dec 96623475710157603 17], Dec 27872120478586002 19);
  ([Dec 38069040695840156 17; Dec 83060469323313224 17; Dec 33765242898423975 18], Dec 36150617283950623 19);
  ([Dec 38069040695840156 17; Dec 83060469323313224 17; Dec 16939530676686776 17], Dec 76123112211858336 19);
  ([Dec 38069040695840156 17; Dec 83060469323313224 17; Dec 38069040695840156 17], Dec 98732979363675838 19);
  ([Dec 38069040695840156 17; Dec 83060469323313224 17; Dec 61930959304159849 17], Dec 98732979363675838 19);
  ([Dec 38069040695840156 17; Dec 83060469323313224 17; Dec 83060469323313224 17], Dec 76123112211858336 19);
  ([Dec 38069040695840156 17; Dec 83060469323313224 17; Dec 96623475710157603 17], Dec 36150617283950623 19);
  ([Dec 61930959304159849 17; Dec 83060469323313224 17; Dec 33765242898423975 18], Dec 36150617283950623 19);
  ([Dec 61930959304159849 17; Dec 83060469323313224 17; Dec 16939530676686776 17], Dec 76123112211858336 19);
  ([Dec 61930959304159849 17; Dec 83060469323313224 17; Dec 38069040695840156 17], Dec 98732979363675838 19);
  ([Dec 61930959304159849 17; Dec 83060469323313224 17; Dec 61930959304159849 17], Dec 98732979363675838 19);
  ([Dec 61930959304159849 17; Dec 83060469323313224 17; Dec 83060469323313224 17], Dec 76123112211858336 19);
  ([Dec 61930959304159849 17; Dec 83060469323313224 17; Dec 96623475710157603 17], Dec 36150617283950623 19);
  ([Dec 83060469323313224 17; Dec 83060469323313224 17; Dec 33765242898423975 18], Dec 27872120478586002 19);
  ([Dec 83060469323313224 17; Dec 83060469323313224 17; Dec 16939530676686776 17], Dec 58690908044764963 19);
  ([Dec 83060469323313224 17; Dec 83060469323313224 17; Dec 38069040695840156 17], Dec 76123112211858327 19);
  ([Dec 83060469323313224 17; Dec 83060469323313224 17; Dec 61930959304159849 17], Dec 76123112211858327 19);
  ([Dec 83060469323313224 17; Dec 83060469323313224 17; Dec 83060469323313224 17], Dec 58690908044764963 19);
  ([Dec 83060469323313224 17; Dec 83060469323313224 17; Dec 96623475710157603 17], Dec 27872120478586002 19);
  ([Dec 96623475710157603 17; Dec 83060469323313224 17; Dec 33765242898423975 18], Dec 13236378952942544 19);
  ([Dec 96623475710157603 17; Dec 83060469323313224 17; Dec 16939530676686776 17], Dec 27872120478586002 19);
  ([Dec 96623475710157603 17; Dec 83060469323313224 17; Dec 38069040695840156 17], Dec 36150617283950619 19);
  ([Dec 96623475710157603 17; Dec 83060469323313224 17; Dec 61930959304159849 17], Dec 36150617283950619 19);
  ([Dec 96623475710157603 17; Dec 83060469323313224 17; Dec 83060469323313224 17], Dec 27872120478586002 19);
  ([Dec 96623475710157603 17; Dec 83060469323313224 17; Dec 96623475710157603 17], Dec 13236378952942544 19);
  ([Dec 33765242898423975 18; Dec 96623475710157603 17; Dec 33765242898423975 18], Dec 62859131195456359 20);
  ([Dec 33765242898423975 18; Dec 96623475710157603 17; Dec 16939530676686776 17], Dec 13236378952942544 19);
  ([Dec 33765242898423975 18; Dec 96623475710157603 17; Dec 38069040695840156 17], Dec 17167810038737324 19);
  ([Dec 33765242898423975 18; Dec 96623475710157603 17; Dec 61930959304159849 17], Dec 17167810038737324 19);
  ([Dec 33765242898423975 18; Dec 96623475710157603 17; Dec 83060469323313224 17], Dec 13236378952942544 19);
  ([Dec 33765242898423975 18; Dec 96623475710157603 17; Dec 96623475710157603 17], Dec 62859131195456359 20);
  ([Dec 16939530676686776 17; Dec 96623475710157603 17; Dec 33765242898423975 18], Dec 13236378952942544 19);
  ([Dec 16939530676686776 17; Dec 96623475710157603 17; Dec 16939530676686776 17], Dec 27872120478586002 19);
  ([Dec 16939530676686776 17; Dec 96623475710157603 17; Dec 38069040695840156 17], Dec 36150617283950619 19);
  ([Dec 16939530676686776 17; Dec 96623475710157603 17; Dec 61930959304159849 17], Dec 36150617283950619 19);
  ([Dec 16939530676686776 17; Dec 96623475710157603 17; Dec 83060469323313224 17], Dec 27872120478586002 19);
  ([Dec 16939530676686776 17; Dec 96623475710157603 17; Dec 96623475710157603 17], Dec 13236378952942544 19);
  ([Dec 38069040695840156 17; Dec 96623475710157603 17; Dec 33765242898423975 18], Dec 17167810038737322 19);
  ([Dec 38069040695840156 17; Dec 96623475710157603 17; Dec 16939530676686776 17], Dec 36150617283950619 19);
  ([Dec 38069040695840156 17; Dec 96623475710157603 17; Dec 38069040695840156 17], Dec 46887969324570337 19);
  ([Dec 38069040695840156 17; Dec 96623475710157603 17; Dec 61930959304159849 17], Dec 46887969324570337 19);
  ([Dec 38069040695840156 17; Dec 96623475710157603 17; Dec 83060469323313224 17], Dec 36150617283950619 19);
  ([Dec 38069040695840156 17; Dec 96623475710157603 17; Dec 96623475710157603 17], Dec 17167810038737322 19);
  ([Dec 61930959304159849 17; Dec 96623475710157603 17; Dec 33765242898423975 18], Dec 17167810038737322 19);
  ([Dec 61930959304159849 17; Dec 96623475710157603 17; Dec 16939530676686776 17], Dec 36150617283950619 19);
  ([Dec 61930959304159849 17; Dec 96623475710157603 17; Dec 38069040695840156 17], Dec 46887969324570337 19);
  ([Dec 61930959304159849 17; Dec 96623475710157603 17; Dec 61930959304159849 17], Dec 46887969324570337 19);
  ([Dec 61930959304159849 17; Dec 96623475710157603 17; Dec 83060469323313224 17], Dec 36150617283950619 19);
  ([Dec 61930959304159849 17; Dec 96623475710157603 17; Dec 96623475710157603 17], Dec 17167810038737322 19);
  ([Dec 83060469323313224 17; Dec 96623475710157603 17; Dec 33765242898423975 18], Dec 13236378952942544 19);
  ([Dec 83060469323313224 17; Dec 96623475710157603 17; Dec 16939530676686776 17], Dec 27872120478586002 19);
  ([Dec 83060469323313224 17; Dec 96623475710157603 17; Dec 38069040695840156 17], Dec 36150617283950619 19);
  ([Dec 83060469323313224 17; Dec 96623475710157603 17; Dec 61930959304159849 17], Dec 36150617283950619 19);
  ([Dec 83060469323313224 17; Dec 96623475710157603 17; Dec 83060469323313224 17], Dec 27872120478586002 19);
  ([Dec 83060469323313224 17; Dec 96623475710157603 17; Dec 96623475710157603 17], Dec 13236378952942544 19);
  ([Dec 96623475710157603 17; Dec 96623475710157603 17; Dec 33765242898423975 18], Dec 62859131195456359 20);
  ([Dec 96623475710157603 17; Dec 96623475710157603 17; Dec 16939530676686776 17], Dec 13236378952942544 19);
  ([Dec 96623475710157603 17; Dec 96623475710157603 17; Dec 38069040695840156 17], Dec 17167810038737324 19);
  ([Dec 96623475710157603 17; Dec 96623475710157603 17; Dec 61930959304159849 17], Dec 17167810038737324 19);
  ([Dec 96623475710157603 17; Dec 96623475710157603 17; Dec 83060469323313224 17], Dec 13236378952942544 19);
  ([Dec 96623475710157603 17; Dec 96623475710157603 17; Dec 96623475710157603 17], Dec 62859131195456359 20)].

(** FillPointsAndWeights, order 12, 13: Quadrature_Gauss3D_Hexahedron.cpp:1826-3201. *)
Definition Hexahedron_13 : rule := Rule false [
  ([Dec 25446043828620757 18; Dec 25446043828620757 18; Dec 25446043828620757 18], Dec 27137388743553873 20);
  ([Dec 25446043828620757 18; Dec 25446043828620757 18; Dec 12923440720030277 17], Dec 58620503731786117 20);
  ([Dec 25446043828620757 18; Dec 25446043828620757 18; Dec 29707742431130141 17], Dec 80023734191772013 20);
  ([Dec 25446043828620757 18; Dec 25446043828620757 18; Dec 50000000000000000 17], Dec 87595658259609235 20);
  ([Dec 25446043828620757 18; Dec 25446043828620757 18; Dec 70292257568869854 17], Dec 80023734191772013 20);
  ([Dec 25446043828620757 18; Dec 25446043828620757 18; Dec 87076559279969723 17], Dec 58620503731786117 20);
  ([Dec 25446043828620757 18; Dec 25446043828620757 18; Dec 97455395617137919 17], Dec 27137388743553873 20);
  ([Dec 12923440720030277 17; Dec 25446043828620757 18; Dec 25446043828620757 18], Dec 58620503731786117 20);
  ([Dec 12923440720030277 17; Dec 25446043828620757 18; Dec 12923440720030277 17], Dec 12662837571594328 19);
  ([Dec 12923440720030277 17; Dec 25446043828620757 18; Dec 29707742431130141 17], Dec 17286230643449526 19);
  ([Dec 12923440720030277 17; Dec 25446043828620757 18; Dec 50000000000000000 17], Dec 18921870709153667 19);
  ([Dec 12923440720030277 17; Dec 25446043828620757 18; Dec 70292257568869854 17], Dec 17286230643449526 19);
  ([Dec 12923440720030277 17; Dec 25446043828620757 18; Dec 87076559279969723 17], Dec 12662837571594328 19);
  ([Dec 12923440720030277 17; Dec 25446043828620757 18; Dec 97455395617137919 17], Dec 58620503731786117 20);
  ([Dec 29707742431130141 17; Dec 25446043828620757 18; Dec 25446043828620757 18], Dec 80023734191772024 20);
  ([Dec 29707742431130141 17; Dec 25446043828620757 18; Dec 12923440720030277 17], Dec 17286230643449526 19);
  ([Dec 29707742431130141 17; Dec 25446043828620757 18; Dec 29707742431130141 17], Dec 23597694290009830 19);
  ([Dec 29707742431130141 17; Dec 25446043828620757 18; Dec 50000000000000000 17], Dec 25830531224509722 19);
  ([Dec 29707742431130141 17; Dec 25446043828620757 18; Dec 70292257568869854 17], Dec 23597694290009830 19);
  ([Dec 29707742431130141 17; Dec 25446043828620757 18; Dec 87076559279969723 17], Dec 17286230643449526 19);
  ([Dec 29707742431130141 17; Dec 25446043828620757 18; Dec 97455395617137919 17], Dec 80023734191772024 20);
  ([Dec 50000000000000000 17; Dec 25446043828620757 18; Dec 25446043828620757 18], Dec 87595658259609246 20);
  ([Dec 50000000000000000 17; Dec 25446043828620757 18; Dec 12923440720030277 17], Dec 18921870709153669 19);
  ([Dec 50000000000000000 17; Dec 25446043828620757 18; Dec 29707742431130141 17], Dec 25830531224509722 19);
  ([Dec 50000000000000000 17; Dec 25446043828620757 18; Dec 50000000000000000 17], Dec 28274641375570331 19);
  ([Dec 50000000000000000 17; Dec 25446043828620757 18; Dec 70292257568869854 17], Dec 25830531224509722 19);
  ([Dec 50000000000000000 17; Dec 25446043828620757 18; Dec 87076559279969723 17], Dec 18921870709153669 19);
  ([Dec 50000000000000000 17; Dec 25446043828620757 18; Dec 97455395617137919 17], Dec 87595658259609246 20);
  ([Dec 70292257568869854 17; Dec 25446043828620757 18; Dec 25446043828620757 18], Dec 80023734191772024 20);
  ([Dec 70292257568869854 17; Dec 25446043828620757 18; Dec 12923440720030277 17], Dec 17286230643449526 19);
  ([Dec 70292257568869854 17; Dec 25446043828620757 18; Dec 29707742431130141 17], Dec 23597694290009830 19);
  ([Dec 70292257568869854 17; Dec 25446043828620757 18; Dec 50000000000000000 17], Dec 25830531224509722 19);
  ([Dec 70292257568869854 17; Dec 25446043828620757 18; Dec 70292257568869854 17], Dec 23597694290009830 19);
  ([Dec 70292257568869854 17; Dec 25446043828620757 18; Dec 87076559279969723 17], Dec 17286230643449526 19);
  ([Dec 70292257568869854 17; Dec 25446043828620757 18; Dec 97455395617137919 17], Dec 80023734191772024 20);
  ([Dec 87076559279969723 17; Dec 25446043828620757 18; Dec 25446043828620757 18], Dec 58620503731786117 20);
  ([Dec 87076559279969723 17; Dec 25446043828620757 18; Dec 12923440720030277 17], Dec 12662837571594328 19);
  ([Dec 87076559279969723 17; Dec 25446043828620757 18; Dec 29707742431130141 17], Dec 17286230643449526 19);
  ([Dec 87076559279969723 17; Dec 25446043828620757 18; Dec 50000000000000000 17], Dec 18921870709153667 19);
  ([Dec 87076559279969723 17; Dec 25446043828620757 18; Dec 70292257568869854 17], Dec 17286230643449526 19);
  ([Dec 87076559279969723 17; Dec 25446043828620757 18; Dec 87076559279969723 17], Dec 12662837571594328 19);
  ([Dec 87076559279969723 17; Dec 25446043828620757 18; Dec 97455395617137919 17], Dec 58620503731786117 20);
  ([Dec 97455395617137919 17; Dec 25446043828620757 18; Dec 25446043828620757 18], Dec 27137388743553873 20);
  ([Dec 97455395617137919 17; Dec 25446043828620757 18; Dec 12923440720030277 17], Dec 58620503731786117 20);
  ([Dec 97455395617137919 17; Dec 25446043828620757 18; Dec 29707742431130141 17], Dec 80023734191772013 20);
  ([Dec 97455395617137919 17; Dec 25446043828620757 18; Dec 50000000000000000 17], Dec 87595658259609235 20);
  ([Dec 97455395617137919 17; Dec 25446043828620757 18; Dec 70292257568869854 17], Dec 80023734191772013 20);
  ([Dec 97455395617137919 17; Dec 25446043828620757 18; Dec 87076559279969723 17], Dec 58620503731786117 20);
  ([Dec 97455395617137919 17; Dec 25446043828620757 18; Dec 97455395617137919 17], Dec 27137388743553873 20);
  ([Dec 25446043828620757 18; Dec 12923440720030277 17; Dec 25446043828620757 18], Dec 58620503731786117 20);
  ([Dec 25446043828620757 18; Dec 12923440720030277 17; Dec 12923440720030277 17], Dec 12662837571594328 19);
  ([Dec 25446043828620757 18; Dec 12923440720030277 17; Dec 29707742431130141 17], Dec 17286230643449526 19);
  ([Dec 25446043828620757 18; Dec 12923440720030277 17; Dec 50000000000000000 17], Dec 18921870709153667 19);
  ([Dec 25446043828620757 18; Dec 12923440720030277 17; Dec 70292257568869854 17], Dec 17286230643449526 19);
  ([Dec 25446043828620757 18; Dec 12923440720030277 17; Dec 87076559279969723 17], Dec 12662837571594328 19);
  ([Dec 25446043828620757 18; Dec 12923440720030277 17; Dec 97455395617137919 17], Dec 58620503731786117 20);
  ([Dec 12923440720030277 17; Dec 12923440720030277 17; Dec 25446043828620757 18], Dec 12662837571594328 19);
  ([Dec 12923440720030277 17; Dec 12923440720030277 17; Dec 12923440720030277 17], Dec 27353476199767773 19);
  ([Dec 12923440720030277 17; Dec 12923440720030277 17; Dec 29707742431130141 17], Dec 37340643107511623 19);
  ([Dec 12923440720030277 17; Dec 12923440720030277 17; Dec 50000000000000000 17], Dec 40873851312676311 19);
  ([Dec 12923440720030277 17; Dec 12923440720030277 17; Dec 70292257568869854 17], Dec 37340643107511623 19);
  ([Dec 12923440720030277 17; Dec 12923440720030277 17; Dec 87076559279969723 17], Dec 27353476199767773 19);
  ([Dec 12923440720030277 17; Dec 12923440720030277 17; Dec 97455395617137919 17], Dec 12662837571594328 19);
  ([Dec 29707742431130141 17; Dec 12923440720030277 17; Dec 25446043828620757 18], Dec 17286230643449524 19);
  ([Dec 29707742431130141 17; Dec 12923440720030277 17; Dec 12923440720030277 17], Dec 37340643107511623 19);
  ([Dec 29707742431130141 17; Dec 12923440720030277 17; Dec 29707742431130141 17], Dec 50974275353506725 19);
  ([Dec 29707742431130141 17; Dec 12923440720030277 17; Dec 50000000000000000 17], Dec 55797511188325644 19);
  ([Dec 29707742431130141 17; Dec 12923440720030277 17; Dec 70292257568869854 17], Dec 50974275353506725 19);
  ([Dec 29707742431130141 17; Dec 12923440720030277 17; Dec 87076559279969723 17], Dec 37340643107511623 19);
  ([Dec 29707742431130141 17; Dec 12923440720030277 17; Dec 97455395617137919 17], Dec 17286230643449524 19);
  ([Dec 50000000000000000 17; Dec 12923440720030277 17; Dec 25446043828620757 18], Dec 18921870709153667 19);
  ([Dec 50000000000000000 17; Dec 12923440720030277 17; Dec 12923440720030277 17], Dec 40873851312676320 19);
  ([Dec 50000000000000000 17; Dec 12923440720030277 17; Dec 29707742431130141 17], Dec 55797511188325653 19);
  ([Dec 50000000000000000 17; Dec 12923440720030277 17; Dec 50000000000000000 17], Dec 61077126319504325 19);
  ([Dec 50000000000000000 17; Dec 12923440720030277 17; Dec 70292257568869854 17], Dec 55797511188325653 19);
  ([Dec 50000000000000000 17; Dec 12923440720030277 17; Dec 87076559279969723 17], Dec 40873851312676320 19);
  ([Dec 50000000000000000 17; Dec 12923440720030277 17; Dec 97455395617137919 17], Dec 18921870709153667 19);
  ([Dec 70292257568869854 17; Dec 12923440720030277 17; Dec 25446043828620757 18], Dec 17286230643449524 19);
  ([Dec 70292257568869854 17; Dec 12923440720030277 17; Dec 12923440720030277 17], Dec 37340643107511623 19);
  ([Dec 70292257568869854 17; Dec 12923440720030277 17; Dec 29707742431130141 17], Dec 50974275353506725 19);
  ([Dec 70292257568869854 17; Dec 12923440720030277 17; Dec 50000000000000000 17], Dec 55797511188325644 19);
  ([Dec 70292257568869854 17; Dec 12923440720030277 17; Dec 70292257568869854 17], Dec 50974275353506725 19);
  ([Dec 70292257568869854 17; Dec 12923440720030277 17; Dec 87076559279969723 17], Dec 37340643107511623 19);
  ([Dec 70292257568869854 17; Dec 12923440720030277 17; Dec 97455395617137919 17], Dec 17286230643449524 19);
  ([Dec 87076559279969723 17; Dec 12923440720030277 17; Dec 25446043828620757 18], Dec 12662837571594328 19);
  ([Dec 87076559279969723 17; Dec 12923440720030277 17; Dec 12923440720030277 17], Dec 27353476199767773 19);
  ([Dec 87076559279969723 17; Dec 12923440720030277 17; Dec 29707742431130141 17], Dec 37340643107511623 19);
  ([Dec 87076559279969723 17; Dec 12923440720030277 17; Dec 50000000000000000 17], Dec 40873851312676311 19);
  ([Dec 87076559279969723 17; Dec 12923440720030277 17; Dec 70292257568869854 17], Dec 37340643107511623 19);
  ([Dec 87076559279969723 17; Dec 12923440720030277 17; Dec 87076559279969723 17], Dec 27353476199767773 19);
  ([Dec 87076559279969723 17; Dec 12923440720030277 17; Dec 97455395617137919 17], Dec 12662837571594328 19);
  ([Dec 97455395617137919 17; Dec 12923440720030277 17; Dec 25446043828620757 18], Dec 58620503731786117 20);
  ([Dec 97455395617137919 17; Dec 12923440720030277 17; Dec 12923440720030277 17], Dec 12662837571594328 19);
  ([Dec 97455395617137919 17; Dec 12923440720030277 17; Dec 29707742431130141 17], Dec 17286230643449526 19);
  ([Dec 97455395617137919 17; Dec 12923440720030277 17; Dec 50000000000000000 17], Dec 18921870709153667 19);
  ([Dec 97455395617137919 17; Dec 12923440720030277 17; Dec 70292257568869854 17], Dec 17286230643449526 19);
  ([Dec 97455395617137919 17; Dec 12923440720030277 17; Dec 87076559279969723 17], Dec 12662837571594328 19);
  ([Dec 97455395617137919 17; Dec 12923440720030277 17; Dec 97455395617137919 17], Dec 58620503731786117 20);
  ([Dec 25446043828620757 18; Dec 29707742431130141 17; Dec 25446043828620757 18], Dec 80023734191772024 20);
  ([Dec 25446043828620757 18; Dec 29707742431130141 17; Dec 12923440720030277 17], Dec 17286230643449526 19);
  ([Dec 25446043828620757 18; Dec 29707742431130141 17; Dec 29707742431130141 17], Dec 23597694290009830 19);
  ([Dec 25446043828620757 18; Dec 29707742431130141 17; Dec 50000000000000000 17], Dec 25830531224509722 19);
  ([Dec 25446043828620757 18; Dec 29707742431130141 17; Dec 70292257568869854 17], Dec 23597694290009830 19);
  ([Dec 25446043828620757 18; Dec 29707742431130141 17; Dec 87076559279969723 17], Dec 17286230643449526 19);
  ([Dec 25446043828620757 18; Dec 29707742431130141 17; Dec 97455395617137919 17], Dec 80023734191772024 20);
  ([Dec 12923440720030277 17; Dec 29707742431130141 17; Dec 25446043828620757 18], Dec 17286230643449524 19);
  ([Dec 12923440720030277 17; Dec 29707742431130141 17; Dec 12923440720030277 17], Dec 37340643107511623 19);
  ([Dec 12923440720030277 17; Dec 29707742431130141 17; Dec 29707742431130141 17], Dec 50974275353506725 19);
  ([Dec 12923440720030277 17; Dec 29707742431130141 17; Dec 50000000000000000 17], Dec 55797511188325644 19);
  ([Dec 12923440720030277 17; Dec 29707742431130141 17; Dec 70292257568869854 17], Dec 50974275353506725 19);
  ([Dec 12923440720030277 17; Dec 29707742431130141 17; Dec 87076559279969723 17], Dec 37340643107511623 19);
  ([Dec 12923440720030277 17; Dec 29707742431130141 17; Dec 97455395617137919 17], Dec 17286230643449524 19);
  ([Dec 29707742431130141 17; Dec 29707742431130141 17; Dec 25446043828620757 18], Dec 23597694290009830 19);
  ([Dec 29707742431130141 17; Dec 29707742431130141 17; Dec 12923440720030277 17], Dec 50974275353506725 19);
  ([Dec 29707742431130141 17; Dec 29707742431130141 17; Dec 29707742431130141 17], Dec 69585752455678012 19);
  ([Dec 29707742431130141 17; Dec 29707742431130141 17; Dec 50000000000000000 17], Dec 76170024473465039 19);
  ([Dec 29707742431130141 17; Dec 29707742431130141 17; Dec 70292257568869854 17], Dec 69585752455678012 19);
  ([Dec 29707742431130141 17; Dec 29707742431130141 17; Dec 87076559279969723 17], Dec 50974275353506725 19);
  ([Dec 29707742431130141 17; Dec 29707742431130141 17; Dec 97455395617137919 17], Dec 23597694290009830 19);
  ([Dec 50000000000000000 17; Dec 29707742431130141 17; Dec 25446043828620757 18], Dec 25830531224509722 19);
  ([Dec 50000000000000000 17; Dec 29707742431130141 17; Dec 12923440720030277 17], Dec 55797511188325653 19);
  ([Dec 50000000000000000 17; Dec 29707742431130141 17; Dec 29707742431130141 17], Dec 76170024473465039 19);
  ([Dec 50000000000000000 17; Dec 29707742431130141 17; Dec 50000000000000000 17], Dec 83377306755196921 19);
  ([Dec 50000000000000000 17; Dec 29707742431130141 17; Dec 70292257568869854 17], Dec 76170024473465039 19);
  ([Dec 50000000000000000 17; Dec 29707742431130141 17; Dec 87076559279969723 17], Dec 55797511188325653 19);
  ([Dec 50000000000000000 17; Dec 29707742431130141 17; Dec 97455395617137919 17], Dec 25830531224509722 19);
  ([Dec 70292257568869854 17; Dec 29707742431130141 17; Dec 25446043828620757 18], Dec 23597694290009830 19);
  ([Dec 70292257568869854 17; Dec 29707742431130141 17; Dec 12923440720030277 17], Dec 50974275353506725 19);
  ([Dec 70292257568869854 17; Dec 29707742431130141 17; Dec 29707742431130141 17], Dec 69585752455678012 19);
  ([Dec 70292257568869854 17; Dec 29707742431130141 17; Dec 50000000000000000 17], Dec 76170024473465039 19);
  ([Dec 70292257568869854 17; Dec 29707742431130141 17; Dec 70292257568869854 17], Dec 69585752455678012 19);
  ([Dec 70292257568869854 17; Dec 29707742431130141 17; Dec 87076559279969723 17], Dec 50974275353506725 19);
  ([Dec 70292257568869854 17; Dec 29707742431130141 17; Dec 97455395617137919 17], Dec 23597694290009830 19);
  ([Dec 87076559279969723 17; Dec 29707742431130141 17; Dec 25446043828620757 18], Dec 17286230643449524 19);
  ([Dec 87076559279969723 17; Dec 29707742431130141 17; Dec 12923440720030277 17], Dec 37340643107511623 19);
  ([Dec 87076559279969723 17; Dec 29707742431130141 17; Dec 29707742431130141 17], Dec 50974275353506725 19);
  ([Dec 87076559279969723 17; Dec 29707742431130141 17; Dec 50000000000000000 17], Dec 55797511188325644 19);
  ([Dec 87076559279969723 17; Dec 29707742431130141 17; Dec 70292257568869854 17], Dec 50974275353506725 19);
  ([Dec 87076559279969723 17; Dec 29707742431130141 17; Dec 87076559279969723 17], Dec 37340643107511623 19);
  ([Dec 87076559279969723 17; Dec 29707742431130141 17; Dec 97455395617137919 17], Dec 17286230643449524 19);
  ([Dec 97455395617137919 17; Dec 29707742431130141 17; Dec 25446043828620757 18], Dec 80023734191772024 20);
  ([Dec 97455395617137919 17; Dec 29707742431130141 17; Dec 12923440720030277 17], Dec 17286230643449526 19);
  ([Dec 97455395617137919 17; Dec 29707742431130141 17; Dec 29707742431130141 17], Dec 23597694290009830 19);
  ([Dec 97455395617137919 17; Dec 29707742431130141 17; Dec 50000000000000000 17], Dec 25830531224509722 19);
  ([Dec 97455395617137919 17; Dec 29707742431130141 17; Dec 70292257568869854 17], Dec 23597694290009830 19);
  ([Dec 97455395617137919 17; Dec 29707742431130141 17; Dec 87076559279969723 17], Dec 17286230643449526 19);
  ([Dec 97455395617137919 17; Dec 29707742431130141 17; Dec 97455395617137919 17], Dec 80023734191772024 20);
  ([Dec 25446043828620757 18; Dec 50000000000000000 17; Dec 25446043828620757 18], Dec 87595658259609246 20);
  ([Dec 25446043828620757 18; Dec 50000000000000000 17; Dec 12923440720030277 17], Dec 18921870709153669 19);
  ([Dec 25446043828620757 18; Dec 50000000000000000 17; Dec 29707742431130141 17], Dec 25830531224509722 19);
  ([Dec 25446043828620757 18; Dec 50000000000000000 17; Dec 50000000000000000 17], Dec 28274641375570331 19);
  ([Dec 25446043828620757 18; Dec 50000000000000000 17; Dec 70292257568869854 17], Dec 25830531224509722 19);
  ([Dec 25446043828620757 18; Dec 50000000000000000 17; Dec 87076559279969723 17], Dec 18921870709153669 19);
  ([Dec 25446043828620757 18; Dec 50000000000000000 17; Dec 97455395617137919 17], Dec 87595658259609246 20);
  ([Dec 12923440720030277 17; Dec 50000000000000000 17; Dec 25446043828620757 18], Dec 18921870709153667 19);
  ([Dec 12923440720030277 17; Dec 50000000000000000 17; Dec 12923440720030277 17], Dec 40873851312676320 19);
  ([Dec 12923440720030277 17; Dec 50000000000000000 17; Dec 29707742431130141 17], Dec 55797511188325653 19);
  ([Dec 12923440720030277 17; Dec 50000000000000000 17; Dec 50000000000000000 17], Dec 61077126319504325 19);
  ([Dec 12923440720030277 17; Dec 50000000000000000 17; Dec 70292257568869854 17], Dec 55797511188325653 19);
  ([Dec 12923440720030277 17; Dec 50000000000000000 17; Dec 87076559279969723 17], Dec 40873851312676320 19);
  ([Dec 12923440720030277 17; Dec 50000000000000000 17; Dec 97455395617137919 17], Dec 18921870709153667 19);
  ([Dec 29707742431130141 17; Dec 50000000000000000 17; Dec 25446043828620757 18], Dec 25830531224509722 19);
  ([Dec 29707742431130141 17; Dec 50000000000000000 17; Dec 12923440720030277 17], Dec 55797511188325653 19);
  ([Dec 29707742431130141 17; Dec 50000000000000000 17; Dec 29707742431130141 17], Dec 76170024473465039 19);
  ([Dec 29707742431130141 17; Dec 50000000000000000 17; Dec 50000000000000000 17], Dec 83377306755196921 19);
  ([Dec 29707742431130141 17; Dec 50000000000000000 17; Dec 70292257568869854 17], Dec 76170024473465039 19);
  ([Dec 29707742431130141 17; Dec 50000000000000000 17; Dec 87076559279969723 17], Dec 55797511188325653 19);
  ([Dec 29707742431130141 17; Dec 50000000000000000 17; Dec 97455395617137919 17], Dec 25830531224509722 19);
  ([Dec 50000000000000000 17; Dec 50000000000000000 17; Dec 25446043828620757 18], Dec 28274641375570331 19);
  ([Dec 50000000000000000 17; Dec 50000000000000000 17; Dec 12923440720030277 17], Dec 61077126319504325 19);
  ([Dec 50000000000000000 17; Dec 50000000000000000 17; Dec 29707742431130141 17], Dec 83377306755196921 19);
  ([Dec 50000000000000000 17; Dec 50000000000000000 17; Dec 50000000000000000 17], Dec 91266549141939182 19);
  ([Dec 50000000000000000 17; Dec 50000000000000000 17; Dec 70292257568869854 17], Dec 83377306755196921 19);
  ([Dec 50000000000000000 17; Dec 50000000000000000 17; Dec 87076559279969723 17], Dec 61077126319504325 19);
  ([Dec 50000000000000000 17; Dec 50000000000000000 17; Dec 97455395617137919 17], Dec 28274641375570331 19);
  ([Dec 70292257568869854 17; Dec 50000000000000000 17; Dec 25446043828620757 18], Dec 25830531224509722 19);
  ([Dec 70292257568869854 17; Dec 50000000000000000 17; Dec 12923440720030277 17], Dec 55797511188325653 19);
  ([Dec 70292257568869854 17; Dec 50000000000000000 17; Dec 29707742431130141 17], Dec 76170024473465039 19);
  ([Dec 70292257568869854 17; Dec 50000000000000000 17; Dec 50000000000000000 17], Dec 83377306755196921 19);
  ([Dec 70292257568869854 17; Dec 50000000000000000 17; Dec 70292257568869854 17], Dec 76170024473465039 19);
  ([Dec 70292257568869854 17; Dec 50000000000000000 17; Dec 87076559279969723 17], Dec 55797511188325653 19);
  ([Dec 70292257568869854 17; Dec 50000000000000000 17; Dec 97455395617137919 17], Dec 25830531224509722 19);
  ([Dec 87076559279969723 17; Dec 50000000000000000 17; Dec 25446043828620757 18], Dec 18921870709153667 19);
  ([Dec 87076559279969723 17; Dec 50000000000000000 17; Dec 12923440720030277 17], Dec 40873851312676320 19);
  ([Dec 87076559279969723 17; Dec 50000000000000000 17; Dec 29707742431130141 17], Dec 55797511188325653 19);
  ([Dec 87076559279969723 17; Dec 50000000000000000 17; Dec 50000000000000000 17], Dec 61077126319504325 19);
  ([Dec 87076559279969723 17; Dec 50000000000000000 17; Dec 70292257568869854 17], Dec 55797511188325653 19);
  ([Dec 87076559279969723 17; Dec 50000000000000000 17; Dec 87076559279969723 17], Dec 40873851312676320 19);
  ([Dec 87076559279969723 17; Dec 50000000000000000 17; Dec 97455395617137919 17], Dec 18921870709153667 19);
  ([Dec 97455395617137919 17; Dec 50000000000000000 17; Dec 25446043828620757 18], Dec 87595658259609246 20);
  ([Dec 97455395617137919 17; Dec 50000000000000000 17; Dec 12923440720030277 17], Dec 18921870709153669 19);
  ([Dec 97455395617137919 17; Dec 50000000000000000 17; Dec 29707742431130141 17], Dec 25830531224509722 19);
  ([Dec 97455395617137919 17; Dec 50000000000000000 17; Dec 50000000000000000 17], Dec 28274641375570331 19);
  ([Dec 97455395617137919 17; Dec 50000000000000000 17; Dec 70292257568869854 17], Dec 25830531224509722 19);
  ([Dec 97455395617137919 17; Dec 50000000000000000 17; Dec 87076559279969723 17], Dec 18921870709153669 19);
  ([Dec 97455395617137919 17; Dec 50000000000000000 17; Dec 97455395617137919 17], Dec 87595658259609246 20);
  ([Dec 25446043828620757 18; Dec 70292257568869854 17; Dec 25446043828620757 18], Dec 80023734191772024 20);
  ([Dec 25446043828620757 18; Dec 70292257568869854 17; Dec 12923440720030277 17], Dec 17286230643449526 19);
  ([Dec 25446043828620757 18; Dec 70292257568869854 17; Dec 29707742431130141 17], Dec 23597694290009830 19);
  ([Dec 25446043828620757 18; Dec 70292257568869854 17; Dec 50000000000000000 17], Dec 25830531224509722 19);
  ([Dec 25446043828620757 18; Dec 70292257568869854 17; Dec 70292257568869854 17], Dec 23597694290009830 19);
  ([Dec 25446043828620757 18; Dec 70292257568869854 17; Dec 87076559279969723 17], Dec 17286230643449526 19);
  ([Dec 25446043828620757 18; Dec 70292257568869854 17; Dec 97455395617137919 17], Dec 80023734191772024 20);
  ([Dec 12923440720030277 17; Dec 70292257568869854 17; Dec 25446043828620757 18], Dec 17286230643449524 19);
  ([Dec 12923440720030277 17; Dec 70292257568869854 17; Dec 12923440720030277 17], Dec 37340643107511623 19);
  ([Dec 12923440720030277 17; Dec 70292257568869854 17; Dec 29707742431130141 17], Dec 50974275353506725 19);
  ([Dec 12923440720030277 17; Dec 70292257568869854 17; Dec 50000000000000000 17], Dec 55797511188325644 19);
  ([Dec 12923440720030277 17; Dec 70292257568869854 17; Dec 70292257568869854 17], Dec 50974275353506725 19);
  ([Dec 12923440720030277 17; Dec 70292257568869854 17; Dec 87076559279969723 17], Dec 37340643107511623 19);
  ([Dec 12923440720030277 17; Dec 70292257568869854 17; Dec 97455395617137919 17], Dec 17286230643449524 19);
  ([Dec 29707742431130141 17; Dec 70292257568869854 17; Dec 25446043828620757 18], Dec 23597694290009830 19);
  ([Dec 29707742431130141 17; Dec 70292257568869854 17; Dec 12923440720030277 17], Dec 50974275353506725 19);
  ([Dec 29707742431130141 17; Dec 70292257568869854 17; Dec 29707742431130141 17], Dec 69585752455678012 19);
  ([Dec 29707742431130141 17; Dec 70292257568869854 17; Dec 50000000000000000 17], Dec 76170024473465039 19);
  ([Dec 29707742431130141 17; Dec 70292257568869854 17; Dec 70292257568869854 17], Dec 69585752455678012 19);
  ([Dec 29707742431130141 17; Dec 70292257568869854 17; Dec 87076559279969723 17], Dec 50974275353506725 19);
  ([Dec 29707742431130141 17; Dec 70292257568869854 17; Dec 97455395617137919 17], Dec 23597694290009830 19);
  ([Dec 50000000000000000 17; Dec 70292257568869854 17; Dec 25446043828620757 18], Dec 25830531224509722 19);
  ([Dec 50000000000000000 17; Dec 70292257568869854 17; Dec 12923440720030277 17], Dec 55797511188325653 19);
  ([Dec 50000000000000000 17; Dec 70292257568869854 17; Dec 29707742431130141 17], Dec 76170024473465039 19);
  ([Dec 50000000000000000 17; Dec 70292257568869854 17; Dec 50000000000000000 17], Dec 83377306755196921 19);
  ([Dec 50000000000000000 17; Dec 70292257568869854 17; Dec 70292257568869854 17], Dec 76170024473465039 19);
  ([Dec 50000000000000000 17; Dec 70292257568869854 17; Dec 87076559279969723 17], Dec 55797511188325653 19);
  ([Dec 50000000000000000 17; Dec 70292257568869854 17; Dec 97455395617137919 17], Dec 25830531224509722 19);
  ([Dec 70292257568869854 17; Dec 70292257568869854 17; Dec 25446043828620757 18], Dec 23597694290009830 19);
  ([Dec 70292257568869854 17; Dec 70292257568869854 17; Dec 12923440720030277 17], Dec 50974275353506725 19);
  ([Dec 70292257568869854 17; Dec 70292257568869854 17; Dec 29707742431130141 17], Dec 69585752455678012 19);
  ([Dec 70292257568869854 17; Dec 70292257568869854 17; Dec 50000000000000000 17], Dec 76170024473465039 19);
  ([Dec 70292257568869854 17; Dec 70292257568869854 17; Dec 70292257568869854 17], Dec 69585752455678012 19);
  ([Dec 70292257568869854 17; Dec 70292257568869854 17; Dec 87076559279969723 17], Dec 50974275353506725 19);
  ([Dec 70292257568869854 17; Dec 70292257568869854 17; Dec 97455395617137919 17], Dec 23597694290009830 19);
  ([Dec 87076559279969723 17; Dec 70292257568869854 17; Dec 25446043828620757 18], Dec 17286230643449524 19);
  ([Dec 87076559279969723 17; Dec 70292257568869854 17; Dec 12923440720030277 17], Dec 37340643107511623 19);
  ([Dec 87076559279969723 17; Dec 70292257568869854 17; Dec 29707742431130141 17], Dec 50974275353506725 19);
  ([Dec 87076559279969723 17; Dec 70292257568869854 17; Dec 50000000000000000 17], Dec 55797511188325644 19);
  ([Dec 87076559279969723 17; Dec 70292257568869854 17; Dec 70292257568869854 17], Dec 50974275353506725 19);
  ([Dec 87076559279969723 17; Dec 70292257568869854 17; Dec 87076559279969723 17], Dec 37340643107511623 19);
  ([Dec 87076559279969723 17; Dec 70292257568869854 17; Dec 97455395617137919 17], Dec 17286230643449524 19);
  ([Dec 97455395617137919 17; Dec 70292257568869854 17; Dec 25446043828620757 18], Dec 80023734191772024 20);
  ([Dec 97455395617137919 17; Dec 70292257568869854 17; Dec 12923440720030277 17], Dec 17286230643449526 19);
  ([Dec 97455395617137919 17; Dec 70292257568869854 17; Dec 29707742431130141 17], Dec 23597694290009830 19);
  ([Dec 97455395617137919 17; Dec 70292257568869854 17; Dec 50000000000000000 17], Dec 25830531224509722 19);
  ([Dec 97455395617137919 17; Dec 70292257568869854 17; Dec 70292257568869854 17], Dec 23597694290009830 19);
  ([Dec 97455395617137919 17; Dec 70292257568869854 17; Dec 87076559279969723 17], Dec 17286230643449526 19);
  ([Dec 97455395617137919 17; Dec 70292257568869854 17; Dec 97455395617137919 17], Dec 80023734191772024 20);
  ([Dec 25446043828620757 18; Dec 87076559279969723 17; Dec 25446043828620757 18], Dec 58620503731786117 20);
  ([Dec 25446043828620757 18; Dec 87076559279969723 17; Dec 12923440720030277 17], Dec 12662837571594328 19);
  ([Dec 25446043828620757 18; Dec 87076559279969723 17; Dec 29707742431130141 17], Dec 17286230643449526 19);
  ([Dec 25446043828620757 18; Dec 87076559279969723 17; Dec 50000000000000000 17], Dec 18921870709153667 19);
  ([Dec 25446043828620757 18; Dec 87076559279969723 17; Dec 70292257568869854 17], Dec 17286230643449526 19);
  ([Dec 25446043828620757 18; Dec 87076559279969723 17; Dec 87076559279969723 17], Dec 12662837571594328 19);
  ([Dec 25446043828620757 18; Dec 87076559279969723 17; Dec 97455395617137919 17], Dec 58620503731786117 20);
  ([Dec 12923440720030277 17; Dec 87076559279969723 17; Dec 25446043828620757 18], Dec 12662837571594328 19);
  ([Dec 12923440720030277 17; Dec 87076559279969723 17; Dec 12923440720030277 17], Dec 27353476199767773 19);
  ([Dec 12923440720030277 17; Dec 87076559279969723 17; Dec 29707742431130141 17], Dec 37340643107511623 19);
  ([Dec 12923440720030277 17; Dec 87076559279969723 17; Dec 50000000000000000 17], Dec 40873851312676311 19);
  ([Dec 12923440720030277 17; Dec 87076559279969723 17; Dec 70292257568869854 17], Dec 37340643107511623 19);
  ([Dec 12923440720030277 17; Dec 87076559279969723 17; Dec 87076559279969723 17], Dec 27353476199767773 19);
  ([Dec 12923440720030277 17; Dec 87076559279969723 17; Dec 97455395617137919 17], Dec 12662837571594328 19);
  ([Dec 29707742431130141 17; Dec 87076559279969723 17; Dec 25446043828620757 18], Dec 17286230643449524 19);
  ([Dec 29707742431130141 17; Dec 87076559279969723 17; Dec 12923440720030277 17], Dec 37340643107511623 19);
  ([Dec 29707742431130141 17; Dec 87076559279969723 17; Dec 29707742431130141 17], Dec 50974275353506725 19);
  ([Dec 29707742431130141 17; Dec 87076559279969723 17; Dec 50000000000000000 17], Dec 55797511188325644 19);
  ([Dec 29707742431130141 17; Dec 87076559279969723 17; Dec 70292257568869854 17], Dec 50974275353506725 19);
  ([Dec 29707742431130141 17; Dec 87076559279969723 17; Dec 87076559279969723 17], Dec 37340643107511623 19);
  ([Dec 29707742431130141 17; Dec 87076559279969723 17; Dec 97455395617137919 17], Dec 17286230643449524 19);
  ([Dec 50000000000000000 17; Dec 87076559279969723 17; Dec 25446043828620757 18], Dec 18921870709153667 19);
  ([Dec 50000000000000000 17; Dec 87076559279969723 17; Dec 12923440720030277 17], Dec 40873851312676320 19);
  ([Dec 50000000000000000 17; Dec 87076559279969723 17; Dec 29707742431130141 17], Dec 55797511188325653 19);
  ([Dec 50000000000000000 17; Dec 87076559279969723 17; Dec 50000000000000000 17], Dec 61077126319504325 19);
  ([Dec 50000000000000000 17; Dec 87076559279969723 17; Dec 70292257568869854 17], Dec 55797511188325653 19);
  ([Dec 50000000000000000 17; Dec 87076559279969723 17; Dec 87076559279969723 17], Dec 40873851312676320 19);
  ([Dec 50000000000000000 17; Dec 87076559279969723 17; Dec 97455395617137919 17], Dec 18921870709153667 19);
  ([Dec 70292257568869854 17; Dec 87076559279969723 17; Dec 25446043828620757 18], Dec 17286230643449524 19);
  ([Dec 70292257568869854 17; Dec 87076559279969723 17; Dec 12923440720030277 17], Dec 37340643107511623 19);
  ([Dec 70292257568869854 17; Dec 87076559279969723 17; Dec 29707742431130141 17], Dec 50974275353506725 19);
  ([Dec 70292257568869854 17; Dec 87076559279969723 17; Dec 50000000000000000 17], Dec 55797511188325644 19);
  ([Dec 70292257568869854 17; Dec 87076559279969723 17; Dec 70292257568869854 17], Dec 50974275353506725 19);
  ([Dec 70292257568869854 17; Dec 87076559279969723 17; Dec 87076559279969723 17], Dec 37340643107511623 19);
  ([Dec 70292257568869854 17; Dec 87076559279969723 17; Dec 97455395617137919 17], Dec 17286230643449524 19);
  ([Dec 87076559279969723 17; Dec 87076559279969723 17; Dec 25446043828620757 18], Dec 12662837571594328 19);
  ([Dec 87076559279969723 17; Dec 87076559279969723 17; Dec 12923440720030277 17], Dec 27353476199767773 19);
  ([Dec 87076559279969723 17; Dec 87076559279969723 17; Dec 29707742431130141 17], Dec 37340643107511623 19);
  ([Dec 87076559279969723 17; Dec 87076559279969723 17; Dec 50000000000000000 17], Dec 40873851312676311 19);
  ([Dec 87076559279969723 17; Dec 87076559279969723 17; Dec 70292257568869854 17], Dec 37340643107511623 19);
  ([Dec 87076559279969723 17; Dec 87076559279969723 17; Dec 87076559279969723 17], Dec 27353476199767773 19);
  ([Dec 87076559279969723 17; Dec 87076559279969723 17; Dec 97455395617137919 17], Dec 12662837571594328 19);
  ([Dec 97455395617137919 17; Dec 87076559279969723 17; Dec 25446043828620757 18], Dec 58620503731786117 20);
  ([Dec 97455395617137919 17; Dec 87076559279969723 17; Dec 12923440720030277 17], Dec 12662837571594328 19);
  ([Dec 97455395617137919 17; Dec 87076559279969723 17; Dec 29707742431130141 17], Dec 17286230643449526 19);
  ([Dec 97455395617137919 17; Dec 87076559279969723 17; Dec 50000000000000000 17], Dec 18921870709153667 19);
  ([Dec 97455395617137919 17; Dec 87076559279969723 17; Dec 70292257568869854 17], Dec 17286230643449526 19);
  ([Dec 97455395617137919 17; Dec 87076559279969723 17; Dec 87076559279969723 17], Dec 12662837571594328 19);
  ([Dec 97455395617137919 17; Dec 87076559279969723 17; Dec 97455395617137919 17], Dec 58620503731786117 20);
  ([Dec 25446043828620757 18; Dec 97455395617137919 17; Dec 25446043828620757 18], Dec 27137388743553873 20);
  ([Dec 25446043828620757 18; Dec 97455395617137919 17; Dec 12923440720030277 17], Dec 58620503731786117 20);
  ([Dec 25446043828620757 18; Dec 97455395617137919 17; Dec 29707742431130141 17], Dec 80023734191772013 20);
  ([Dec 25446043828620757 18; Dec 97455395617137919 17; Dec 50000000000000000 17], Dec 87595658259609235 20);
  ([Dec 25446043828620757 18; Dec 97455395617137919 17; Dec 70292257568869854 17], Dec 80023734191772013 20);
  ([Dec 25446043828620757 18; Dec 97455395617137919 17; Dec 87076559279969723 17], Dec 58620503731786117 20);
  ([Dec 25446043828620757 18; Dec 97455395617137919 17; Dec 97455395617137919 17], Dec 27137388743553873 20);
  ([Dec 12923440720030277 17; Dec 97455395617137919 17; Dec 25446043828620757 18], Dec 58620503731786117 20);
  ([Dec 12923440720030277 17; Dec 97455395617137919 17; Dec 12923440720030277 17], Dec 12662837571594328 19);
  ([Dec 12923440720030277 17; Dec 97455395617137919 17; Dec 29707742431130141 17], Dec 17286230643449526 19);
  ([Dec 12923440720030277 17; Dec 97455395617137919 17; Dec 50000000000000000 17], Dec 18921870709153667 19);
  ([Dec 12923440720030277 17; Dec 97455395617137919 17; Dec 70292257568869854 17], Dec 17286230643449526 19);
  ([Dec 12923440720030277 17; Dec 97455395617137919 17; Dec 87076559279969723 17], Dec 12662837571594328 19);
  ([Dec 12923440720030277 17; Dec 97455395617137919 17; Dec 97455395617137919 17], Dec 58620503731786117 20);
  ([Dec 29707742431130141 17; Dec 97455395617137919 17; Dec 25446043828620757 18], Dec 80023734191772024 20);
  ([Dec 29707742431130141 17; Dec 97455395617137919 17; Dec 12923440720030277 17], Dec 17286230643449526 19);
  ([Dec 29707742431130141 17; Dec 97455395617137919 17; Dec 29707742431130141 17], Dec 23597694290009830 19);
  ([Dec 29707742431130141 17; Dec 97455395617137919 17; Dec 50000000000000000 17], Dec 25830531224509722 19);
  ([Dec 29707742431130141 17; Dec 97455395617137919 17; Dec 70292257568869854 17], Dec 23597694290009830 19);
  ([Dec 29707742431130141 17; Dec 97455395617137919 17; Dec 87076559279969723 17], Dec 17286230643449526 19);
  ([Dec 29707742431130141 17; Dec 97455395617137919 17; Dec 97455395617137919 17], Dec 80023734191772024 20);
  ([Dec 50000000000000000 17; Dec 97455395617137919 17; Dec 25446043828620757 18], Dec 87595658259609246 20);
  ([Dec 50000000000000000 17; Dec 97455395617137919 17; Dec 12923440720030277 17], Dec 18921870709153669 19);
  ([Dec 50000000000000000 17; Dec 97455395617137919 17; Dec 29707742431130141 17], Dec 25830531224509722 19);
  ([Dec 50000000000000000 17; Dec 97455395617137919 17; Dec 50000000000000000 17], Dec 28274641375570331 19);
  ([Dec 50000000000000000 17; Dec 97455395617137919 17; Dec 70292257568869854 17], Dec 25830531224509722 19);
  ([Dec 50000000000000000 17; Dec 97455395617137919 17; Dec 87076559279969723 17], Dec 18921870709153669 19);
  ([Dec 50000000000000000 17; Dec 97455395617137919 17; Dec 97455395617137919 17], Dec 87595658259609246 20);
  ([Dec 70292257568869854 17; Dec 97455395617137919 17; Dec 25446043828620757 18], Dec 80023734191772024 20);
  ([Dec 70292257568869854 17; Dec 97455395617137919 17; Dec 12923440720030277 17], Dec 17286230643449526 19);
  ([Dec 70292257568869854 17; Dec 97455395617137919 17; Dec 29707742431130141 17], Dec 23597694290009830 19);
  ([Dec 70292257568869854 17; Dec 97455395617137919 17; Dec 50000000000000000 17], Dec 25830531224509722 19);
  ([Dec 70292257568869854 17; Dec 97455395617137919 17; Dec 70292257568869854 17], Dec 23597694290009830 19);
  ([Dec 70292257568869854 17; Dec 97455395617137919 17; Dec 87076559279969723 17], Dec 17286230643449526 19);
  ([Dec 70292257568869854 17; Dec 97455395617137919 17; Dec 97455395617137919 17], Dec 80023734191772024 20);
  ([Dec 87076559279969723 17; Dec 97455395617137919 17; Dec 25446043828620757 18], Dec 58620503731786117 20);
  ([Dec 87076559279969723 17; Dec 97455395617137919 17; Dec 12923440720030277 17], Dec 12662837571594328 19);
  ([Dec 87076559279969723 17; Dec 97455395617137919 17; Dec 29707742431130141 17], Dec 17286230643449526 19);
  ([Dec 87076559279969723 17; Dec 97455395617137919 17; Dec 50000000000000000 17], Dec 18921870709153667 19);
  ([Dec 87076559279969723 17; Dec 97455395617137919 17; Dec 70292257568869854 17], Dec 17286230643449526 19);
  ([Dec 87076559279969723 17; Dec 97455395617137919 17; Dec 87076559279969723 17], Dec 12662837571594328 19);
  ([Dec 87076559279969723 17; Dec 97455395617137919 17; Dec 97455395617137919 17], Dec 58620503731786117 20);
  ([Dec 97455395617137919 17; Dec 97455395617137919 17; Dec 25446043828620757 18], Dec 27137388743553873 20);
  ([Dec 97455395617137919 17; Dec 97455395617137919 17; Dec 12923440720030277 17], Dec 58620503731786117 20);
  ([Dec 97455395617137919 17; Dec 97455395617137919 17; Dec 29707742431130141 17], Dec 80023734191772013 20);
  ([Dec 97455395617137919 17; Dec 97455395617137919 17; Dec 50000000000000000 17], Dec 87595658259609235 20);
  ([Dec 97455395617137919 17; Dec 97455395617137919 17; Dec 70292257568869854 17], Dec 80023734191772013 20);
  ([Dec 97455395617137919 17; Dec 97455395617137919 17; Dec 87076559279969723 17], Dec 58620503731786117 20);
  ([Dec 97455395617137919 17; Dec 97455395617137919 17; Dec 97455395617137919 17], Dec 27137388743553873 20)].

(** FillPointsAndWeights, order 14, 15: Quadrature_Gauss3D_Hexahedron.cpp:3204-5255. *)
Definition Hexahedron_15 : rule := Rule false [
  ([Dec 19855071751231912 18; Dec 19855071751231912 18; Dec 19855071751231912 18], Dec 12966384167098537 20);
  ([Dec 19855071751231912 18; Dec 19855071751231912 18; Dec 10166676129318664 17], Dec 28484832734594818 20);
  ([Dec 19855071751231912 18; Dec 19855071751231912 18; Dec 23723379504183550 17], Dec 40182749205782331 20);
  ([Dec 19855071751231912 18; Dec 19855071751231912 18; Dec 40828267875217511 17], Dec 46456240886174612 20);
  ([Dec 19855071751231912 18; Dec 19855071751231912 18; Dec 59171732124782495 17], Dec 46456240886174612 20);
  ([Dec 19855071751231912 18; Dec 19855071751231912 18; Dec 76276620495816450 17], Dec 40182749205782331 20);
  ([Dec 19855071751231912 18; Dec 19855071751231912 18; Dec 89833323870681336 17], Dec 28484832734594818 20);
  ([Dec 19855071751231912 18; Dec 19855071751231912 18; Dec 98014492824876809 17], Dec 12966384167098537 20);
  ([Dec 10166676129318664 17; Dec 19855071751231912 18; Dec 19855071751231912 18], Dec 28484832734594818 20);
  ([Dec 10166676129318664 17; Dec 19855071751231912 18; Dec 10166676129318664 17], Dec 62576095653303989 20);
  ([Dec 10166676129318664 17; Dec 19855071751231912 18; Dec 23723379504183550 17], Dec 88274331162209213 20);
  ([Dec 10166676129318664 17; Dec 19855071751231912 18; Dec 40828267875217511 17], Dec 10205607315557741 19);
  ([Dec 10166676129318664 17; Dec 19855071751231912 18; Dec 59171732124782495 17], Dec 10205607315557741 19);
  ([Dec 10166676129318664 17; Dec 19855071751231912 18; Dec 76276620495816450 17], Dec 88274331162209213 20);
  ([Dec 10166676129318664 17; Dec 19855071751231912 18; Dec 89833323870681336 17], Dec 62576095653303989 20);
  ([Dec 10166676129318664 17; Dec 19855071751231912 18; Dec 98014492824876809 17], Dec 28484832734594818 20);
  ([Dec 23723379504183550 17; Dec 19855071751231912 18; Dec 19855071751231912 18], Dec 40182749205782325 20);
  ([Dec 23723379504183550 17; Dec 19855071751231912 18; Dec 10166676129318664 17], Dec 88274331162209202 20);
  ([Dec 23723379504183550 17; Dec 19855071751231912 18; Dec 23723379504183550 17], Dec 12452610634751142 19);
  ([Dec 23723379504183550 17; Dec 19855071751231912 18; Dec 40828267875217511 17], Dec 14396762061927109 19);
  ([Dec 23723379504183550 17; Dec 19855071751231912 18; Dec 59171732124782495 17], Dec 14396762061927109 19);
  ([Dec 23723379504183550 17; Dec 19855071751231912 18; Dec 76276620495816450 17], Dec 12452610634751142 19);
  ([Dec 23723379504183550 17; Dec 19855071751231912 18; Dec 89833323870681336 17], Dec 88274331162209202 20);
  ([Dec 23723379504183550 17; Dec 19855071751231912 18; Dec 98014492824876809 17], Dec 40182749205782325 20);
  ([Dec 40828267875217511 17; Dec 19855071751231912 18; Dec 19855071751231912 18], Dec 46456240886174607 20);
  ([Dec 40828267875217511 17; Dec 19855071751231912 18; Dec 10166676129318664 17], Dec 10205607315557739 19);
  ([Dec 40828267875217511 17; Dec 19855071751231912 18; Dec 23723379504183550 17], Dec 14396762061927109 19);
  ([Dec 40828267875217511 17; Dec 19855071751231912 18; Dec 40828267875217511 17], Dec 16644442193457037 19);
  ([Dec 40828267875217511 17; Dec 19855071751231912 18; Dec 59171732124782495 17], Dec 16644442193457037 19);
  ([Dec 40828267875217511 17; Dec 19855071751231912 18; Dec 76276620495816450 17], Dec 14396762061927109 19);
  ([Dec 40828267875217511 17; Dec 19855071751231912 18; Dec 89833323870681336 17], Dec 10205607315557739 19);
  ([Dec 40828267875217511 17; Dec 19855071751231912 18; Dec 98014492824876809 17], Dec 46456240886174607 20);
  ([Dec 59171732124782495 17; Dec 19855071751231912 18; Dec 19855071751231912 18], Dec 46456240886174607 20);
  ([Dec 59171732124782495 17; Dec 19855071751231912 18; Dec 10166676129318664 17], Dec 10205607315557739 19);
  ([Dec 59171732124782495 17; Dec 19855071751231912 18; Dec 23723379504183550 17], Dec 14396762061927109 19);
  ([Dec 59171732124782495 17; Dec 19855071751231912 18; Dec 40828267875217511 17], Dec 16644442193457037 19);
  ([Dec 59171732124782495 17; Dec 19855071751231912 18; Dec 59171732124782495 17], Dec 16644442193457037 19);
  ([Dec 59171732124782495 17; Dec 19855071751231912 18; Dec 76276620495816450 17], Dec 14396762061927109 19);
  ([Dec 59171732124782495 17; Dec 19855071751231912 18; Dec 89833323870681336 17], Dec 10205607315557739 19);
  ([Dec 59171732124782495 17; Dec 19855071751231912 18; Dec 98014492824876809 17], Dec 46456240886174607 20);
  ([Dec 76276620495816450 17; Dec 19855071751231912 18; Dec 19855071751231912 18], Dec 40182749205782325 20);
  ([Dec 76276620495816450 17; Dec 19855071751231912 18; Dec 10166676129318664 17], Dec 88274331162209202 20);
  ([Dec 76276620495816450 17; Dec 19855071751231912 18; Dec 23723379504183550 17], Dec 12452610634751142 19);
  ([Dec 76276620495816450 17; Dec 19855071751231912 18; Dec 40828267875217511 17], Dec 14396762061927109 19);
  ([Dec 76276620495816450 17; Dec 19855071751231912 18; Dec 59171732124782495 17], Dec 14396762061927109 19);
  ([Dec 76276620495816450 17; Dec 19855071751231912 18; Dec 76276620495816450 17], Dec 12452610634751142 19);
  ([Dec 76276620495816450 17; Dec 19855071751231912 18; Dec 89833323870681336 17], Dec 88274331162209202 20);
  ([Dec 76276620495816450 17; Dec 19855071751231912 18; Dec 98014492824876809 17], Dec 40182749205782325 20);
  ([Dec 89833323870681336 17; Dec 19855071751231912 18; Dec 19855071751231912 18], Dec 28484832734594818 20);
  ([Dec 89833323870681336 17; Dec 19855071751231912 18; Dec 10166676129318664 17], Dec 62576095653303989 20);
  ([Dec 89833323870681336 17; Dec 19855071751231912 18; Dec 23723379504183550 17], Dec 88274331162209213 20);
  ([Dec 89833323870681336 17; Dec 19855071751231912 18; Dec 40828267875217511 17], Dec 10205607315557741 19);
  ([Dec 89833323870681336 17; Dec 19855071751231912 18; Dec 59171732124782495 17], Dec 10205607315557741 19);
  ([Dec 89833323870681336 17; Dec 19855071751231912 18; Dec 76276620495816450 17], Dec 88274331162209213 20);
  ([Dec 89833323870681336 17; Dec 19855071751231912 18; Dec 89833323870681336 17], Dec 62576095653303989 20);
  ([Dec 89833323870681336 17; Dec 19855071751231912 18; Dec 98014492824876809 17], Dec 28484832734594818 20);
  ([Dec 98014492824876809 17; Dec 19855071751231912 18; Dec 19855071751231912 18], Dec 12966384167098537 20);
  ([Dec 98014492824876809 17; Dec 19855071751231912 18; Dec 10166676129318664 17], Dec 28484832734594818 20);
  ([Dec 98014492824876809 17; Dec 19855071751231912 18; Dec 23723379504183550 17], Dec 40182749205782331 20);
  ([Dec 98014492824876809 17; Dec 19855071751231912 18; Dec 40828267875217511 17], Dec 46456240886174612 20);
  ([Dec 98014492824876809 17; Dec 19855071751231912 18; Dec 59171732124782495 17], Dec 46456240886174612 20);
  ([Dec 98014492824876809 17; Dec 19855071751231912 18; Dec 76276620495816450 17], Dec 40182749205782331 20);
  ([Dec 98014492824876809 17; Dec 19855071751231912 18; Dec 89833323870681336 17], Dec 28484832734594818 20);
  ([Dec 98014492824876809 17; Dec 19855071751231912 18; Dec 98014492824876809 17], Dec 12966384167098537 20);
  ([Dec 19855071751231912 18; Dec 10166676129318664 17; Dec 19855071751231912 18], Dec 28484832734594818 20);
  ([Dec 19855071751231912 18; Dec 10166676129318664 17; Dec 10166676129318664 17], Dec 62576095653303989 20);
  ([Dec 19855071751231912 18; Dec 10166676129318664 17; Dec 23723379504183550 17], Dec 88274331162209213 20);
  ([Dec 19855071751231912 18; Dec 10166676129318664 17; Dec 40828267875217511 17], Dec 10205607315557741 19);
  ([Dec 19855071751231912 18; Dec 10166676129318664 17; Dec 59171732124782495 17], Dec 10205607315557741 19);
  ([Dec 19855071751231912 18; Dec 10166676129318664 17; Dec 76276620495816450 17], Dec 88274331162209213 20);
  ([Dec 19855071751231912 18; Dec 10166676129318664 17; Dec 89833323870681336 17], Dec 62576095653303989 20);
  ([Dec 19855071751231912 18; Dec 10166676129318664 17; Dec 98014492824876809 17], Dec 28484832734594818 20);
  ([Dec 10166676129318664 17; Dec 10166676129318664 17; Dec 19855071751231912 18], Dec 62576095653303979 20);
  ([Dec 10166676129318664 17; Dec 10166676129318664 17; Dec 10166676129318664 17], Dec 13746851820041590 19);
  ([Dec 10166676129318664 17; Dec 10166676129318664 17; Dec 23723379504183550 17], Dec 19392295689449870 19);
  ([Dec 10166676129318664 17; Dec 10166676129318664 17; Dec 40828267875217511 17], Dec 22419898530869299 19);
  ([Dec 10166676129318664 17; Dec 10166676129318664 17; Dec 59171732124782495 17], Dec 22419898530869299 19);
  ([Dec 10166676129318664 17; Dec 10166676129318664 17; Dec 76276620495816450 17], Dec 19392295689449870 19);
  ([Dec 10166676129318664 17; Dec 10166676129318664 17; Dec 89833323870681336 17], Dec 13746851820041590 19);
  ([Dec 10166676129318664 17; Dec 10166676129318664 17; Dec 98014492824876809 17], Dec 62576095653303979 20);
  ([Dec 23723379504183550 17; Dec 10166676129318664 17; Dec 19855071751231912 18], Dec 88274331162209202 20);
  ([Dec 23723379504183550 17; Dec 10166676129318664 17; Dec 10166676129318664 17], Dec 19392295689449870 19);
  ([Dec 23723379504183550 17; Dec 10166676129318664 17; Dec 23723379504183550 17], Dec 27356163944299962 19);
  ([Dec 23723379504183550 17; Dec 10166676129318664 17; Dec 40828267875217511 17], Dec 31627117781557988 19);
  ([Dec 23723379504183550 17; Dec 10166676129318664 17; Dec 59171732124782495 17], Dec 31627117781557988 19);
  ([Dec 23723379504183550 17; Dec 10166676129318664 17; Dec 76276620495816450 17], Dec 27356163944299962 19);
  ([Dec 23723379504183550 17; Dec 10166676129318664 17; Dec 89833323870681336 17], Dec 19392295689449870 19);
  ([Dec 23723379504183550 17; Dec 10166676129318664 17; Dec 98014492824876809 17], Dec 88274331162209202 20);
  ([Dec 40828267875217511 17; Dec 10166676129318664 17; Dec 19855071751231912 18], Dec 10205607315557739 19);
  ([Dec 40828267875217511 17; Dec 10166676129318664 17; Dec 10166676129318664 17], Dec 22419898530869299 19);
  ([Dec 40828267875217511 17; Dec 10166676129318664 17; Dec 23723379504183550 17], Dec 31627117781557993 19);
  ([Dec 40828267875217511 17; Dec 10166676129318664 17; Dec 40828267875217511 17], Dec 36564870030944630 19);
  ([Dec 40828267875217511 17; Dec 10166676129318664 17; Dec 59171732124782495 17], Dec 36564870030944630 19);
  ([Dec 40828267875217511 17; Dec 10166676129318664 17; Dec 76276620495816450 17], Dec 31627117781557993 19);
  ([Dec 40828267875217511 17; Dec 10166676129318664 17; Dec 89833323870681336 17], Dec 22419898530869299 19);
  ([Dec 40828267875217511 17; Dec 10166676129318664 17; Dec 98014492824876809 17], Dec 10205607315557739 19);
  ([Dec 59171732124782495 17; Dec 10166676129318664 17; Dec 19855071751231912 18], Dec 10205607315557739 19);
  ([Dec 59171732124782495 17; Dec 10166676129318664 17; Dec 10166676129318664 17], Dec 22419898530869299 19);
  ([Dec 59171732124782495 17; Dec 10166676129318664 17; Dec 23723379504183550 17], Dec 31627117781557993 19);
  ([Dec 59171732124782495 17; Dec 10166676129318664 17; Dec 40828267875217511 17], Dec 36564870030944630 19);
  ([Dec 59171732124782495 17; Dec 10166676129318664 17; Dec 59171732124782495 17], Dec 36564870030944630 19);
  ([Dec 59171732124782495 17; Dec 10166676129318664 17; Dec 76276620495816450 17], Dec 31627117781557993 19);
  ([Dec 59171732124782495 17; Dec 10166676129318664 17; Dec 89833323870681336 17], Dec 22419898530869299 19);
  ([Dec 59171732124782495 17; Dec 10166676129318664 17; Dec 98014492824876809 17], Dec 10205607315557739 19);
  ([Dec 76276620495816450 17; Dec 10166676129318664 17; Dec 19855071751231912 18], Dec 88274331162209202 20);
  ([Dec 76276620495816450 17; Dec 10166676129318664 17; Dec 10166676129318664 17], Dec 19392295689449870 19);
  ([Dec 76276620495816450 17; Dec 10166676129318664 17; Dec 23723379504183550 17], Dec 27356163944299962 19);
  ([Dec 76276620495816450 17; Dec 10166676129318664 17; Dec 40828267875217511 17], Dec 31627117781557988 19);
  ([Dec 76276620495816450 17; Dec 10166676129318664 17; Dec 59171732124782495 17], Dec 31627117781557988 19);
  ([Dec 76276620495816450 17; Dec 10166676129318664 17; Dec 76276620495816450 17], Dec 27356163944299962 19);
  ([Dec 76276620495816450 17; Dec 10166676129318664 17; Dec 89833323870681336 17], Dec 19392295689449870 19);
  ([Dec 76276620495816450 17; Dec 10166676129318664 17; Dec 98014492824876809 17], Dec 88274331162209202 20);
  ([Dec 89833323870681336 17; Dec 10166676129318664 17; Dec 19855071751231912 18], Dec 62576095653303979 20);
  ([Dec 89833323870681336 17; Dec 10166676129318664 17; Dec 10166676129318664 17], Dec 13746851820041590 19);
  ([Dec 89833323870681336 17; Dec 10166676129318664 17; Dec 23723379504183550 17], Dec 19392295689449870 19);
  ([Dec 89833323870681336 17; Dec 10166676129318664 17; Dec 40828267875217511 17], Dec 22419898530869299 19);
  ([Dec 89833323870681336 17; Dec 10166676129318664 17; Dec 59171732124782495 17], Dec 22419898530869299 19);
  ([Dec 89833323870681336 17; Dec 10166676129318664 17; Dec 76276620495816450 17], Dec 19392295689449870 19);
  ([Dec 89833323870681336 17; Dec 10166676129318664 17; Dec 89833323870681336 17], Dec 13746851820041590 19);
  ([Dec 89833323870681336 17; Dec 10166676129318664 17; Dec 98014492824876809 17], Dec 62576095653303979 20);
  ([Dec 98014492824876809 17; Dec 10166676129318664 17; Dec 19855071751231912 18], Dec 28484832734594818 20);
  ([Dec 98014492824876809 17; Dec 10166676129318664 17; Dec 10166676129318664 17], Dec 62576095653303989 20);
  ([Dec 98014492824876809 17; Dec 10166676129318664 17; Dec 23723379504183550 17], Dec 88274331162209213 20);
  ([Dec 98014492824876809 17; Dec 10166676129318664 17; Dec 40828267875217511 17], Dec 10205607315557741 19);
  ([Dec 98014492824876809 17; Dec 10166676129318664 17; Dec 59171732124782495 17], Dec 10205607315557741 19);
  ([Dec 98014492824876809 17; Dec 10166676129318664 17; Dec 76276620495816450 17], Dec 88274331162209213 20);
  ([Dec 98014492824876809 17; Dec 10166676129318664 17; Dec 89833323870681336 17], Dec 62576095653303989 20);
  ([Dec 98014492824876809 17; Dec 10166676129318664 17; Dec 98014492824876809 17], Dec 28484832734594818 20);
  ([Dec 19855071751231912 18; Dec 23723379504183550 17; Dec 19855071751231912 18], Dec 40182749205782325 20);
  ([Dec 19855071751231912 18; Dec 23723379504183550 17; Dec 10166676129318664 17], Dec 88274331162209202 20);
  ([Dec 19855071751231912 18; Dec 23723379504183550 17; Dec 23723379504183550 17], Dec 12452610634751142 19);
  ([Dec 19855071751231912 18; Dec 23723379504183550 17; Dec 40828267875217511 17], Dec 14396762061927109 19);
  ([Dec 19855071751231912 18; Dec 23723379504183550 17; Dec 59171732124782495 17], Dec 14396762061927109 19);
  ([Dec 19855071751231912 18; Dec 23723379504183550 17; Dec 76276620495816450 17], Dec 12452610634751142 19);
  ([Dec 19855071751231912 18; Dec 23723379504183550 17; Dec 89833323870681336 17], Dec 88274331162209202 20);
  ([Dec 19855071751231912 18; Dec 23723379504183550 17; Dec 98014492824876809 17], Dec 40182749205782325 20);
  ([Dec 10166676129318664 17; Dec 23723379504183550 17; Dec 19855071751231912 18], Dec 88274331162209202 20);
  ([Dec 10166676129318664 17; Dec 23723379504183550 17; Dec 10166676129318664 17], Dec 19392295689449870 19);
  ([Dec 10166676129318664 17; Dec 23723379504183550 17; Dec 23723379504183550 17], Dec 27356163944299962 19);
  ([Dec 10166676129318664 17; Dec 23723379504183550 17; Dec 40828267875217511 17], Dec 31627117781557988 19);
  ([Dec 10166676129318664 17; Dec 23723379504183550 17; Dec 59171732124782495 17], Dec 31627117781557988 19);
  ([Dec 10166676129318664 17; Dec 23723379504183550 17; Dec 76276620495816450 17], Dec 27356163944299962 19);
  ([Dec 10166676129318664 17; Dec 23723379504183550 17; Dec 89833323870681336 17], Dec 19392295689449870 19);
  ([Dec 10166676129318664 17; Dec 23723379504183550 17; Dec 98014492824876809 17], Dec 88274331162209202 20);
  ([Dec 23723379504183550 17; Dec 23723379504183550 17; Dec 19855071751231912 18], Dec 12452610634751144 19);
  ([Dec 23723379504183550 17; Dec 23723379504183550 17; Dec 10166676129318664 17], Dec 27356163944299962 19);
  ([Dec 23723379504183550 17; Dec 23723379504183550 17; Dec 23723379504183550 17], Dec 38590568013799043 19);
  ([Dec 23723379504183550 17; Dec 23723379504183550 17; Dec 40828267875217511 17], Dec 44615481992092559 19);
  ([Dec 23723379504183550 17; Dec 23723379504183550 17; Dec 59171732124782495 17], Dec 44615481992092559 19);
  ([Dec 23723379504183550 17; Dec 23723379504183550 17; Dec 76276620495816450 17], Dec 38590568013799043 19);
  ([Dec 23723379504183550 17; Dec 23723379504183550 17; Dec 89833323870681336 17], Dec 27356163944299962 19);
  ([Dec 23723379504183550 17; Dec 23723379504183550 17; Dec 98014492824876809 17], Dec 12452610634751144 19);
  ([Dec 40828267875217511 17; Dec 23723379504183550 17; Dec 19855071751231912 18], Dec 14396762061927109 19);
  ([Dec 40828267875217511 17; Dec 23723379504183550 17; Dec 10166676129318664 17], Dec 31627117781557988 19);
  ([Dec 40828267875217511 17; Dec 23723379504183550 17; Dec 23723379504183550 17], Dec 44615481992092559 19);
  ([Dec 40828267875217511 17; Dec 23723379504183550 17; Dec 40828267875217511 17], Dec 51581029661832561 19);
  ([Dec 40828267875217511 17; Dec 23723379504183550 17; Dec 59171732124782495 17], Dec 51581029661832561 19);
  ([Dec 40828267875217511 17; Dec 23723379504183550 17; Dec 76276620495816450 17], Dec 44615481992092559 19);
  ([Dec 40828267875217511 17; Dec 23723379504183550 17; Dec 89833323870681336 17], Dec 31627117781557988 19);
  ([Dec 40828267875217511 17; Dec 23723379504183550 17; Dec 98014492824876809 17], Dec 14396762061927109 19);
  ([Dec 59171732124782495 17; Dec 23723379504183550 17; Dec 19855071751231912 18], Dec 14396762061927109 19);
  ([Dec 59171732124782495 17; Dec 23723379504183550 17; Dec 10166676129318664 17], Dec 31627117781557988 19);
  ([Dec 59171732124782495 17; Dec 23723379504183550 17; Dec 23723379504183550 17], Dec 44615481992092559 19);
  ([Dec 59171732124782495 17; Dec 23723379504183550 17; Dec 40828267875217511 17], Dec 51581029661832561 19);
  ([Dec 59171732124782495 17; Dec 23723379504183550 17; Dec 59171732124782495 17], Dec 51581029661832561 19);
  ([Dec 59171732124782495 17; Dec 23723379504183550 17; Dec 76276620495816450 17], Dec 44615481992092559 19);
  ([Dec 59171732124782495 17; Dec 23723379504183550 17; Dec 89833323870681336 17], Dec 31627117781557988 19);
  ([Dec 59171732124782495 17; Dec 23723379504183550 17; Dec 98014492824876809 17], Dec 14396762061927109 19);
  ([Dec 76276620495816450 17; Dec 23723379504183550 17; Dec 19855071751231912 18], Dec 12452610634751144 19);
  ([Dec 76276620495816450 17; Dec 23723379504183550 17; Dec 10166676129318664 17], Dec 27356163944299962 19);
  ([Dec 76276620495816450 17; Dec 23723379504183550 17; Dec 23723379504183550 17], Dec 38590568013799043 19);
  ([Dec 76276620495816450 17; Dec 23723379504183550 17; Dec 40828267875217511 17], Dec 44615481992092559 19);
  ([Dec 76276620495816450 17; Dec 23723379504183550 17; Dec 59171732124782495 17], Dec 44615481992092559 19);
  ([Dec 76276620495816450 17; Dec 23723379504183550 17; Dec 76276620495816450 17], Dec 38590568013799043 19);
  ([Dec 76276620495816450 17; Dec 23723379504183550 17; Dec 89833323870681336 17], Dec 27356163944299962 19);
  ([Dec 76276620495816450 17; Dec 23723379504183550 17; Dec 98014492824876809 17], Dec 12452610634751144 19);
  ([Dec 89833323870681336 17; Dec 23723379504183550 17; Dec 19855071751231912 18], Dec 88274331162209202 20);
  ([Dec 89833323870681336 17; Dec 23723379504183550 17; Dec 10166676129318664 17], Dec 19392295689449870 19);
  ([Dec 89833323870681336 17; Dec 23723379504183550 17; Dec 23723379504183550 17], Dec 27356163944299962 19);
  ([Dec 89833323870681336 17; Dec 23723379504183550 17; Dec 40828267875217511 17], Dec 31627117781557988 19);
  ([Dec 89833323870681336 17; Dec 23723379504183550 17; Dec 59171732124782495 17], Dec 31627117781557988 19);
  ([Dec 89833323870681336 17; Dec 23723379504183550 17; Dec 76276620495816450 17], Dec 27356163944299962 19);
  ([Dec 89833323870681336 17; Dec 23723379504183550 17; Dec 89833323870681336 17], Dec 19392295689449870 19);
  ([Dec 89833323870681336 17; Dec 23723379504183550 17; Dec 98014492824876809 17], Dec 88274331162209202 20);
  ([Dec 98014492824876809 17; Dec 23723379504183550 17; Dec 19855071751231912 18], Dec 40182749205782325 20);
  ([Dec 98014492824876809 17; Dec 23723379504183550 17; Dec 10166676129318664 17], Dec 88274331162209202 20);
  ([Dec 98014492824876809 17; Dec 23723379504183550 17; Dec 23723379504183550 17], Dec 12452610634751142 19);
  ([Dec 98014492824876809 17; Dec 23723379504183550 17; Dec 40828267875217511 17], Dec 14396762061927109 19);
  ([Dec 98014492824876809 17; Dec 23723379504183550 17; Dec 59171732124782495 17], Dec 14396762061927109 19);
  ([Dec 98014492824876809 17; Dec 23723379504183550 17; Dec 76276620495816450 17], Dec 12452610634751142 19);
  ([Dec 98014492824876809 17; Dec 23723379504183550 17; Dec 89833323870681336 17], Dec 88274331162209202 20);
  ([Dec 98014492824876809 17; Dec 23723379504183550 17; Dec 98014492824876809 17], Dec 40182749205782325 20);
  ([Dec 19855071751231912 18; Dec 40828267875217511 17; Dec 19855071751231912 18], Dec 46456240886174607 20);
  ([Dec 19855071751231912 18; Dec 40828267875217511 17; Dec 10166676129318664 17], Dec 10205607315557739 19);
  ([Dec 19855071751231912 18; Dec 40828267875217511 17; Dec 23723379504183550 17], Dec 14396762061927109 19);
  ([Dec 19855071751231912 18; Dec 40828267875217511 17; Dec 40828267875217511 17], Dec 16644442193457037 19);
  ([Dec 19855071751231912 18; Dec 40828267875217511 17; Dec 59171732124782495 17], Dec 16644442193457037 19);
  ([Dec 19855071751231912 18; Dec 40828267875217511 17; Dec 76276620495816450 17], Dec 14396762061927109 19);
  ([Dec 19855071751231912 18; Dec 40828267875217511 17; Dec 89833323870681336 17], Dec 10205607315557739 19);
  ([Dec 19855071751231912 18; Dec 40828267875217511 17; Dec 98014492824876809 17], Dec 46456240886174607 20);
  ([Dec 10166676129318664 17; Dec 40828267875217511 17; Dec 19855071751231912 18], Dec 10205607315557739 19);
  ([Dec 10166676129318664 17; Dec 40828267875217511 17; Dec 10166676129318664 17], Dec 22419898530869299 19);
  ([Dec 10166676129318664 17; Dec 40828267875217511 17; Dec 23723379504183550 17], Dec 31627117781557993 19);
  ([Dec 10166676129318664 17; Dec 40828267875217511 17; Dec 40828267875217511 17], Dec 36564870030944630 19);
  ([Dec 10166676129318664 17; Dec 40828267875217511 17; Dec 59171732124782495 17], Dec 36564870030944630 19);
  ([Dec 10166676129318664 17; Dec 40828267875217511 17; Dec 76276620495816450 17], Dec 31627117781557993 19);
  ([Dec 10166676129318664 17; Dec 40828267875217511 17; Dec 89833323870681336 17], Dec 22419898530869299 19);
  ([Dec 10166676129318664 17; Dec 40828267875217511 17; Dec 98014492824876809 17], Dec 10205607315557739 19);
  ([Dec 23723379504183550 17; Dec 40828267875217511 17; Dec 19855071751231912 18], Dec 14396762061927109 19);
  ([Dec 23723379504183550 17; Dec 40828267875217511 17; Dec 10166676129318664 17], Dec 31627117781557988 19);
  ([Dec 23723379504183550 17; Dec 40828267875217511 17; Dec 23723379504183550 17], Dec 44615481992092559 19);
  ([Dec 23723379504183550 17; Dec 40828267875217511 17; Dec 40828267875217511 17], Dec 51581029661832561 19);
  ([Dec 23723379504183550 17; Dec 40828267875217511 17; Dec 59171732124782495 17], Dec 51581029661832561 19);
  ([Dec 23723379504183550 17; Dec 40828267875217511 17; Dec 76276620495816450 17], Dec 44615481992092559 19);
  ([Dec 23723379504183550 17; Dec 40828267875217511 17; Dec 89833323870681336 17], Dec 31627117781557988 19);
  ([Dec 23723379504183550 17; Dec 40828267875217511 17; Dec 98014492824876809 17], Dec 14396762061927109 19);
  ([Dec 40828267875217511 17; Dec 40828267875217511 17; Dec 19855071751231912 18], Dec 16644442193457037 19);
  ([Dec 40828267875217511 17; Dec 40828267875217511 17; Dec 10166676129318664 17], Dec 36564870030944621 19);
  ([Dec 40828267875217511 17; Dec 40828267875217511 17; Dec 23723379504183550 17], Dec 51581029661832561 19);
  ([Dec 40828267875217511 17; Dec 40828267875217511 17; Dec 40828267875217511 17], Dec 59634066520819016 19);
  ([Dec 40828267875217511 17; Dec 40828267875217511 17; Dec 59171732124782495 17], Dec 59634066520819016 19);
  ([Dec 40828267875217511 17; Dec 40828267875217511 17; Dec 76276620495816450 17], Dec 51581029661832561 19);
  ([Dec 40828267875217511 17; Dec 40828267875217511 17; Dec 89833323870681336 17], Dec 36564870030944621 19);
  ([Dec 40828267875217511 17; Dec 40828267875217511 17; Dec 98014492824876809 17], Dec 16644442193457037 19);
  ([Dec 59171732124782495 17; Dec 40828267875217511 17; Dec 19855071751231912 18], Dec 16644442193457037 19);
  ([Dec 59171732124782495 17; Dec 40828267875217511 17; Dec 10166676129318664 17], Dec 36564870030944621 19);
  ([Dec 59171732124782495 17; Dec 40828267875217511 17; Dec 23723379504183550 17], Dec 51581029661832561 19);
  ([Dec 59171732124782495 17; Dec 40828267875217511 17; Dec 40828267875217511 17], Dec 59634066520819016 19);
  ([Dec 59171732124782495 17; Dec 40828267875217511 17; Dec 59171732124782495 17], Dec 59634066520819016 19);
  ([Dec 59171732124782495 17; Dec 40828267875217511 17; Dec 76276620495816450 17], Dec 51581029661832561 19);
  ([Dec 59171732124782495 17; Dec 40828267875217511 17; Dec 89833323870681336 17], Dec 36564870030944621 19);
  ([Dec 59171732124782495 17; Dec 40828267875217511 17; Dec 98014492824876809 17], Dec 16644442193457037 19);
  ([Dec 76276620495816450 17; Dec 40828267875217511 17; Dec 19855071751231912 18], Dec 14396762061927109 19);
  ([Dec 76276620495816450 17; Dec 40828267875217511 17; Dec 10166676129318664 17], Dec 31627117781557988 19);
  ([Dec 76276620495816450 17; Dec 40828267875217511 17; Dec 23723379504183550 17], Dec 44615481992092559 19);
  ([Dec 76276620495816450 17; Dec 40828267875217511 17; Dec 40828267875217511 17], Dec 51581029661832561 19);
  ([Dec 76276620495816450 17; Dec 40828267875217511 17; Dec 59171732124782495 17], Dec 51581029661832561 19);
  ([Dec 76276620495816450 17; Dec 40828267875217511 17; Dec 76276620495816450 17], Dec 44615481992092559 19);
  ([Dec 76276620495816450 17; Dec 40828267875217511 17; Dec 89833323870681336 17], Dec 31627117781557988 19);
  ([Dec 76276620495816450 17; Dec 40828267875217511 17; Dec 98014492824876809 17], Dec 14396762061927109 19);
  ([Dec 89833323870681336 17; Dec 40828267875217511 17; Dec 19855071751231912 18], Dec 10205607315557739 19);
  ([Dec 89833323870681336 17; Dec 40828267875217511 17; Dec 10166676129318664 17], Dec 22419898530869299 19);
  ([Dec 89833323870681336 17; Dec 40828267875217511 17; Dec 23723379504183550 17], Dec 31627117781557993 19);
  ([Dec 89833323870681336 17; Dec 40828267875217511 17; Dec 40828267875217511 17], Dec 36564870030944630 19);
  ([Dec 89833323870681336 17; Dec 40828267875217511 17; Dec 59171732124782495 17], Dec 36564870030944630 19);
  ([Dec 89833323870681336 17; Dec 40828267875217511 17; Dec 76276620495816450 17], Dec 31627117781557993 19);
  ([Dec 89833323870681336 17; Dec 40828267875217511 17; Dec 89833323870681336 17], Dec 22419898530869299 19);
  ([Dec 89833323870681336 17; Dec 40828267875217511 17; Dec 98014492824876809 17], Dec 10205607315557739 19);
  ([Dec 98014492824876809 17; Dec 40828267875217511 17; Dec 19855071751231912 18], Dec 46456240886174607 20);
  ([Dec 98014492824876809 17; Dec 40828267875217511 17; Dec 10166676129318664 17], Dec 10205607315557739 19);
  ([Dec 98014492824876809 17; Dec 40828267875217511 17; Dec 23723379504183550 17], Dec 14396762061927109 19);
  ([Dec 98014492824876809 17; Dec 40828267875217511 17; Dec 40828267875217511 17], Dec 16644442193457037 19);
  ([Dec 98014492824876809 17; Dec 40828267875217511 17; Dec 59171732124782495 17], Dec 16644442193457037 19);
  ([Dec 98014492824876809 17; Dec 40828267875217511 17; Dec 76276620495816450 17], Dec 14396762061927109 19);
  ([Dec 98014492824876809 17; Dec 40828267875217511 17; Dec 89833323870681336 17], Dec 10205607315557739 19);
  ([Dec 98014492824876809 17; Dec 40828267875217511 17; Dec 98014492824876809 17], Dec 46456240886174607 20);
  ([Dec 19855071751231912 18; Dec 59171732124782495 17; Dec 19855071751231912 18], Dec 46456240886174607 20);
  ([Dec 19855071751231912 18; Dec 59171732124782495 17; Dec 10166676129318664 17], Dec 10205607315557739 19);
  ([Dec 19855071751231912 18; Dec 59171732124782495 17; Dec 23723379504183550 17], Dec 14396762061927109 19);
  ([Dec 19855071751231912 18; Dec 59171732124782495 17; Dec 40828267875217511 17], Dec 16644442193457037 19);
  ([Dec 19855071751231912 18; Dec 59171732124782495 17; Dec 59171732124782495 17], Dec 16644442193457037 19);
  ([Dec 19855071751231912 18; Dec 59171732124782495 17; Dec 76276620495816450 17], Dec 14396762061927109 19);
  ([Dec 19855071751231912 18; Dec 59171732124782495 17; Dec 89833323870681336 17], Dec 10205607315557739 19);
  ([Dec 19855071751231912 18; Dec 59171732124782495 17; Dec 98014492824876809 17], Dec 46456240886174607 20);
  ([Dec 10166676129318664 17; Dec 59171732124782495 17; Dec 19855071751231912 18], Dec 10205607315557739 19);
  ([Dec 10166676129318664 17; Dec 59171732124782495 17; Dec 10166676129318664 17], Dec 22419898530869299 19);
  ([Dec 10166676129318664 17; Dec 59171732124782495 17; Dec 23723379504183550 17], Dec 31627117781557993 19);
  ([Dec 10166676129318664 17; Dec 59171732124782495 17; Dec 40828267875217511 17], Dec 36564870030944630 19);
  ([Dec 10166676129318664 17; Dec 59171732124782495 17; Dec 59171732124782495 17], Dec 36564870030944630 19);
  ([Dec 10166676129318664 17; Dec 59171732124782495 17; Dec 76276620495816450 17], Dec 31627117781557993 19);
  ([Dec 10166676129318664 17; Dec 59171732124782495 17; Dec 89833323870681336 17], Dec 22419898530869299 19);
  ([Dec 10166676129318664 17; Dec 59171732124782495 17; Dec 98014492824876809 17], Dec 10205607315557739 19);
  ([Dec 23723379504183550 17; Dec 59171732124782495 17; Dec 19855071751231912 18], Dec 14396762061927109 19);
  ([Dec 23723379504183550 17; Dec 59171732124782495 17; Dec 10166676129318664 17], Dec 31627117781557988 19);
  ([Dec 23723379504183550 17; Dec 59171732124782495 17; Dec 23723379504183550 17], Dec 44615481992092559 19);
  ([Dec 23723379504183550 17; Dec 59171732124782495 17; Dec 40828267875217511 17], Dec 51581029661832561 19);
  ([Dec 23723379504183550 17; Dec 59171732124782495 17; Dec 59171732124782495 17], Dec 51581029661832561 19);
  ([Dec 23723379504183550 17; Dec 59171732124782495 17; Dec 76276620495816450 17], Dec 44615481992092559 19);
  ([Dec 23723379504183550 17; Dec 59171732124782495 17; Dec 89833323870681336 17], Dec 31627117781557988 19);
  ([Dec 23723379504183550 17; Dec 59171732124782495 17; Dec 98014492824876809 17], Dec 14396762061927109 19);
  ([Dec 40828267875217511 17; Dec 59171732124782495 17; Dec 19855071751231912 18], Dec 16644442193457037 19);
  ([Dec 40828267875217511 17; Dec 59171732124782495 17; Dec 10166676129318664 17], Dec 36564870030944621 19);
  ([Dec 40828267875217511 17; Dec 59171732124782495 17; Dec 23723379504183550 17], Dec 51581029661832561 19);
  ([Dec 40828267875217511 17; Dec 59171732124782495 17; Dec 40828267875217511 17], Dec 59634066520819016 19);
  ([Dec 40828267875217511 17; Dec 59171732124782495 17; Dec 59171732124782495 17], Dec 59634066520819016 19);
  ([Dec 40828267875217511 17; Dec 59171732124782495 17; Dec 76276620495816450 17], Dec 51581029661832561 19);
  ([Dec 40828267875217511 17; Dec 59171732124782495 17; Dec 89833323870681336 17], Dec 36564870030944621 19);
  ([Dec 40828267875217511 17; Dec 59171732124782495 17; Dec 98014492824876809 17], Dec 16644442193457037 19);
  ([Dec 59171732124782495 17; Dec 59171732124782495 17; Dec 19855071751231912 18], Dec 16644442193457037 19);
  ([Dec 59171732124782495 17; Dec 59171732124782495 17; Dec 10166676129318664 17], Dec 36564870030944621 19);
  ([Dec 59171732124782495 17; Dec 59171732124782495 17; Dec 23723379504183550 17], Dec 51581029661832561 19);
  ([Dec 59171732124782495 17; Dec 59171732124782495 17; Dec 40828267875217511 17], Dec 59634066520819016 19);
  ([Dec 59171732124782495 17; Dec 59171732124782495 17; Dec 59171732124782495 17], Dec 59634066520819016 19);
  ([Dec 59171732124782495 17; Dec 59171732124782495 17; Dec 76276620495816450 17], Dec 51581029661832561 19);
  ([Dec 59171732124782495 17; Dec 59171732124782495 17; Dec 89833323870681336 17], Dec 36564870030944621 19);
  ([Dec 59171732124782495 17; Dec 59171732124782495 17; Dec 98014492824876809 17], Dec 16644442193457037 19);
  ([Dec 76276620495816450 17; Dec 59171732124782495 17; Dec 19855071751231912 18], Dec 14396762061927109 19);
  ([Dec 76276620495816450 17; Dec 59171732124782495 17; Dec 10166676129318664 17], Dec 31627117781557988 19);
  ([Dec 76276620495816450 17; Dec 59171732124782495 17; Dec 23723379504183550 17], Dec 44615481992092559 19);
  ([Dec 76276620495816450 17; Dec 59171732124782495 17; Dec 40828267875217511 17], Dec 51581029661832561 19);
  ([Dec 76276620495816450 17; Dec 59171732124782495 17; Dec 59171732124782495 17], Dec 51581029661832561 19);
  ([Dec 76276620495816450 17; Dec 59171732124782495 17; Dec 76276620495816450 17], Dec 44615481992092559 19);
  ([Dec 76276620495816450 17; Dec 59171732124782495 17; Dec 89833323870681336 17], Dec 31627117781557988 19);
  ([Dec 76276620495816450 17; Dec 59171732124782495 17; Dec 98014492824876809 17], Dec 14396762061927109 19);
  ([Dec 89833323870681336 17; Dec 59171732124782495 17; Dec 19855071751231912 18], Dec 10205607315557739 19);
  ([Dec 89833323870681336 17; Dec 59171732124782495 17; Dec 10166676129318664 17], Dec 22419898530869299 19);
  ([Dec 89833323870681336 17; Dec 59171732124782495 17; Dec 23723379504183550 17], Dec 31627117781557993 19);
  ([Dec 89833323870681336 17; Dec 59171732124782495 17; Dec 40828267875217511 17], Dec 36564870030944630 19);
  ([Dec 89833323870681336 17; Dec 59171732124782495 17; Dec 59171732124782495 17], Dec 36564870030944630 19);
  ([Dec 89833323870681336 17; Dec 59171732124782495 17; Dec 76276620495816450 17], Dec 31627117781557993 19);
  ([Dec 89833323870681336 17; Dec 59171732124782495 17; Dec 89833323870681336 17], Dec 22419898530869299 19);
  ([Dec 89833323870681336 17; Dec 59171732124782495 17; Dec 98014492824876809 17], Dec 10205607315557739 19);
  ([Dec 98014492824876809 17; Dec 59171732124782495 17; Dec 19855071751231912 18], Dec 46456240886174607 20);
  ([Dec 98014492824876809 17; Dec 59171732124782495 17; Dec 10166676129318664 17], Dec 10205607315557739 19);
  ([Dec 98014492824876809 17; Dec 59171732124782495 17; Dec 23723379504183550 17], Dec 14396762061927109 19);
  ([Dec 98014492824876809 17; Dec 59171732124782495 17; Dec 40828267875217511 17], Dec 16644442193457037 19);
  ([Dec 98014492824876809 17; Dec 59171732124782495 17; Dec 59171732124782495 17], Dec 16644442193457037 19);
  ([Dec 98014492824876809 17; Dec 59171732124782495 17; Dec 76276620495816450 17], Dec 14396762061927109 19);
  ([Dec 98014492824876809 17; Dec 59171732124782495 17; Dec 89833323870681336 17], Dec 10205607315557739 19);
  ([Dec 98014492824876809 17; Dec 59171732124782495 17; Dec 98014492824876809 17], Dec 46456240886174607 20);
  ([Dec 19855071751231912 18; Dec 76276620495816450 17; Dec 19855071751231912 18], Dec 40182749205782325 20);
  ([Dec 19855071751231912 18; Dec 76276620495816450 17; Dec 10166676129318664 17], Dec 88274331162209202 20);
  ([Dec 19855071751231912 18; Dec 76276620495816450 17; Dec 23723379504183550 17], Dec 12452610634751142 19);
  ([Dec 19855071751231912 18; Dec 76276620495816450 17; Dec 40828267875217511 17], Dec 14396762061927109 19);
  ([Dec 19855071751231912 18; Dec 76276620495816450 17; Dec 59171732124782495 17], Dec 14396762061927109 19);
  ([Dec 19855071751231912 18; Dec 76276620495816450 17; Dec 76276620495816450 17], Dec 12452610634751142 19);
  ([Dec 19855071751231912 18; Dec 76276620495816450 17; Dec 89833323870681336 17], Dec 88274331162209202 20);
  ([Dec 19855071751231912 18; Dec 76276620495816450 17; Dec 98014492824876809 17], Dec 40182749205782325 20);
  ([Dec 10166676129318664 17; Dec 76276620495816450 17; Dec 19855071751231912 18], Dec 88274331162209202 20);
  ([Dec 10166676129318664 17; Dec 76276620495816450 17; Dec 10166676129318664 17], Dec 19392295689449870 19);
  ([Dec 10166676129318664 17; Dec 76276620495816450 17; Dec 23723379504183550 17], Dec 27356163944299962 19);
  ([Dec 10166676129318664 17; Dec 76276620495816450 17; Dec 40828267875217511 17], Dec 31627117781557988 19);
  ([Dec 10166676129318664 17; Dec 76276620495816450 17; Dec 59171732124782495 17], Dec 31627117781557988 19);
  ([Dec 10166676129318664 17; Dec 76276620495816450 17; Dec 76276620495816450 17], Dec 27356163944299962 19);
  ([Dec 10166676129318664 17; Dec 76276620495816450 17; Dec 89833323870681336 17], Dec 19392295689449870 19);
  ([Dec 10166676129318664 17; Dec 76276620495816450 17; Dec 98014492824876809 17], Dec 88274331162209202 20);
  ([Dec 23723379504183550 17; Dec 76276620495816450 17; Dec 19855071751231912 18], Dec 12452610634751144 19);
  ([Dec 23723379504183550 17; Dec 76276620495816450 17; Dec 10166676129318664 17], Dec 27356163944299962 19);
  ([Dec 23723379504183550 17; Dec 76276620495816450 17; Dec 23723379504183550 17], Dec 38590568013799043 19);
  ([Dec 23723379504183550 17; Dec 76276620495816450 17; Dec 40828267875217511 17], Dec 44615481992092559 19);
  ([Dec 23723379504183550 17; Dec 76276620495816450 17; Dec 59171732124782495 17], Dec 44615481992092559 19);
  ([Dec 23723379504183550 17; Dec 76276620495816450 17; Dec 76276620495816450 17], Dec 38590568013799043 19);
  ([Dec 23723379504183550 17; Dec 76276620495816450 17; Dec 89833323870681336 17], Dec 27356163944299962 19);
  ([Dec 23723379504183550 17; Dec 76276620495816450 17; Dec 98014492824876809 17], Dec 12452610634751144 19);
  ([Dec 40828267875217511 17; Dec 76276620495816450 17; Dec 19855071751231912 18], Dec 14396762061927109 19);
  ([Dec 40828267875217511 17; Dec 76276620495816450 17; Dec 10166676129318664 17], Dec 31627117781557988 19);
  ([Dec 40828267875217511 17; Dec 76276620495816450 17; Dec 23723379504183550 17], Dec 44615481992092559 19);
  ([Dec 40828267875217511 17; Dec 76276620495816450 17; Dec 40828267875217511 17], Dec 51581029661832561 19);
  ([Dec 40828267875217511 17; Dec 76276620495816450 17; Dec 59171732124782495 17], Dec 51581029661832561 19);
  ([Dec 40828267875217511 17; Dec 76276620495816450 17; Dec 76276620495816450 17], Dec 44615481992092559 19);
  ([Dec 40828267875217511 17; Dec 76276620495816450 17; Dec 89833323870681336 17], Dec 31627117781557988 19);
  ([Dec 40828267875217511 17; Dec 76276620495816450 17; Dec 98014492824876809 17], Dec 14396762061927109 19);
  ([Dec 59171732124782495 17; Dec 76276620495816450 17; Dec 19855071751231912 18], Dec 14396762061927109 19);
  ([Dec 59171732124782495 17; Dec 76276620495816450 17; Dec 10166676129318664 17], Dec 31627117781557988 19);
  ([Dec 59171732124782495 17; Dec 76276620495816450 17; Dec 23723379504183550 17], Dec 44615481992092559 19);
  ([Dec 59171732124782495 17; Dec 76276620495816450 17; Dec 40828267875217511 17], Dec 51581029661832561 19);
  ([Dec 59171732124782495 17; Dec 76276620495816450 17; Dec 59171732124782495 17], Dec 51581029661832561 19);
  ([Dec 59171732124782495 17; Dec 76276620495816450 17; Dec 76276620495816450 17], Dec 44615481992092559 19);
  ([Dec 59171732124782495 17; Dec 76276620495816450 17; Dec 89833323870681336 17], Dec 31627117781557988 19);
  ([Dec 59171732124782495 17; Dec 76276620495816450 17; Dec 98014492824876809 17], Dec 14396762061927109 19);
  ([Dec 76276620495816450 17; Dec 76276620495816450 17; Dec 19855071751231912 18], Dec 12452610634751144 19);
  ([Dec 76276620495816450 17; Dec 76276620495816450 17; Dec 10166676129318664 17], Dec 27356163944299962 19);
  ([Dec 76276620495816450 17; Dec 76276620495816450 17; Dec 23723379504183550 17], Dec 38590568013799043 19);
  ([Dec 76276620495816450 17; Dec 76276620495816450 17; Dec 40828267875217511 17], Dec 44615481992092559 19);
  ([Dec 76276620495816450 17; Dec 76276620495816450 17; Dec 59171732124782495 17], Dec 44615481992092559 19);
  ([Dec 76276620495816450 17; Dec 76276620495816450 17; Dec 76276620495816450 17], Dec 38590568013799043 19);
  ([Dec 76276620495816450 17; Dec 76276620495816450 17; Dec 89833323870681336 17], Dec 27356163944299962 19);
  ([Dec 76276620495816450 17; Dec 76276620495816450 17; Dec 98014492824876809 17], Dec 12452610634751144 19);
  ([Dec 89833323870681336 17; Dec 76276620495816450 17; Dec 19855071751231912 18], Dec 88274331162209202 20);
  ([Dec 89833323870681336 17; Dec 76276620495816450 17; Dec 10166676129318664 17], Dec 19392295689449870 19);
  ([Dec 89833323870681336 17; Dec 76276620495816450 17; Dec 23723379504183550 17], Dec 27356163944299962 19);
  ([Dec 89833323870681336 17; Dec 76276620495816450 17; Dec 40828267875217511 17], Dec 31627117781557988 19);
  ([Dec 89833323870681336 17; Dec 76276620495816450 17; Dec 59171732124782495 17], Dec 31627117781557988 19);
  ([Dec 89833323870681336 17; Dec 76276620495816450 17; Dec 76276620495816450 17], Dec 27356163944299962 19);
  ([Dec 89833323870681336 17; Dec 76276620495816450 17; Dec 89833323870681336 17], Dec 19392295689449870 19);
  ([Dec 89833323870681336 17; Dec 76276620495816450 17; Dec 98014492824876809 17], Dec 88274331162209202 20);
  ([Dec 98014492824876809 17; Dec 76276620495816450 17; Dec 19855071751231912 18], Dec 40182749205782325 20);
  ([Dec 98014492824876809 17; Dec 76276620495816450 17; Dec 10166676129318664 17], Dec 88274331162209202 20);
  ([Dec 98014492824876809 17; Dec 76276620495816450 17; Dec 23723379504183550 17], Dec 12452610634751142 19);
  ([Dec 98014492824876809 17; Dec 76276620495816450 17; Dec 40828267875217511 17], Dec 14396762061927109 19);
  ([Dec 98014492824876809 17; Dec 76276620495816450 17; Dec 59171732124782495 17], Dec 14396762061927109 19);
  ([Dec 98014492824876809 17; Dec 76276620495816450 17; Dec 76276620495816450 17], Dec 12452610634751142 19);
  ([Dec 98014492824876809 17; Dec 76276620495816450 17; Dec 89833323870681336 17], Dec 88274331162209202 20);
  ([Dec 98014492824876809 17; Dec 76276620495816450 17; Dec 98014492824876809 17], Dec 40182749205782325 20);
  ([Dec 19855071751231912 18; Dec 89833323870681336 17; Dec 19855071751231912 18], Dec 28484832734594818 20);
  ([Dec 19855071751231912 18; Dec 89833323870681336 17; Dec 10166676129318664 17], Dec 62576095653303989 20);
  ([Dec 19855071751231912 18; Dec 89833323870681336 17; Dec 23723379504183550 17], Dec 88274331162209213 20);
  ([Dec 19855071751231912 18; Dec 89833323870681336 17; Dec 40828267875217511 17], Dec 10205607315557741 19);
  ([Dec 19855071751231912 18; Dec 89833323870681336 17; Dec 59171732124782495 17], Dec 10205607315557741 19);
  ([Dec 19855071751231912 18; Dec 89833323870681336 17; Dec 76276620495816450 17], Dec 88274331162209213 20);
  ([Dec 19855071751231912 18; Dec 89833323870681336 17; Dec 89833323870681336 17], Dec 62576095653303989 20);
  ([Dec 19855071751231912 18; Dec 89833323870681336 17; Dec 98014492824876809 17], Dec 28484832734594818 20);
  ([Dec 10166676129318664 17; Dec 89833323870681336 17; Dec 19855071751231912 18], Dec 62576095653303979 20);
  ([Dec 10166676129318664 17; Dec 89833323870681336 17; Dec 10166676129318664 17], Dec 13746851820041590 19);
  ([Dec 10166676129318664 17; Dec 89833323870681336 17; Dec 23723379504183550 17], Dec 19392295689449870 19);
  ([Dec 10166676129318664 17; Dec 89833323870681336 17; Dec 40828267875217511 17], Dec 22419898530869299 19);
  ([Dec 10166676129318664 17; Dec 89833323870681336 17; Dec 59171732124782495 17], Dec 22419898530869299 19);
  ([Dec 10166676129318664 17; Dec 89833323870681336 17; Dec 76276620495816450 17], Dec 19392295689449870 19);
  ([Dec 10166676129318664 17; Dec 89833323870681336 17; Dec 89833323870681336 17], Dec 13746851820041590 19);
  ([Dec 10166676129318664 17; Dec 89833323870681336 17; Dec 98014492824876809 17], Dec 62576095653303979 20);
  ([Dec 23723379504183550 17; Dec 89833323870681336 17; Dec 19855071751231912 18], Dec 88274331162209202 20);
  ([Dec 23723379504183550 17; Dec 89833323870681336 17; Dec 10166676129318664 17], Dec 19392295689449870 19);
  ([Dec 23723379504183550 17; Dec 89833323870681336 17; Dec 23723379504183550 17], Dec 27356163944299962 19);
  ([Dec 23723379504183550 17; Dec 89833323870681336 17; Dec 40828267875217511 17], Dec 31627117781557988 19);
  ([Dec 23723379504183550 17; Dec 89833323870681336 17; Dec 59171732124782495 17], Dec 31627117781557988 19);
  ([Dec 23723379504183550 17; Dec 89833323870681336 17; Dec 76276620495816450 17], Dec 27356163944299962 19);
  ([Dec 23723379504183550 17; Dec 89833323870681336 17; Dec 89833323870681336 17], Dec 19392295689449870 19);
  ([Dec 23723379504183550 17; Dec 89833323870681336 17; Dec 98014492824876809 17], Dec 88274331162209202 20);
  ([Dec 40828267875217511 17; Dec 89833323870681336 17; Dec 19855071751231912 18], Dec 10205607315557739 19);
  ([Dec 40828267875217511 17; Dec 89833323870681336 17; Dec 10166676129318664 17], Dec 22419898530869299 19);
  ([Dec 40828267875217511 17; Dec 89833323870681336 17; Dec 23723379504183550 17], Dec 31627117781557993 19);
  ([Dec 40828267875217511 17; Dec 89833323870681336 17; Dec 40828267875217511 17], Dec 36564870030944630 19);
  ([Dec 40828267875217511 17; Dec 89833323870681336 17; Dec 59171732124782495 17], Dec 36564870030944630 19);
  ([Dec 40828267875217511 17; Dec 89833323870681336 17; Dec 76276620495816450 17], Dec 31627117781557993 19);
  ([Dec 40828267875217511 17; Dec 89833323870681336 17; Dec 89833323870681336 17], Dec 22419898530869299 19);
  ([Dec 40828267875217511 17; Dec 89833323870681336 17; Dec 98014492824876809 17], Dec 10205607315557739 19);
  ([Dec 59171732124782495 17; Dec 89833323870681336 17; Dec 19855071751231912 18], Dec 10205607315557739 19);
  ([Dec 59171732124782495 17; Dec 89833323870681336 17; Dec 10166676129318664 17], Dec 22419898530869299 19);
  ([Dec 59171732124782495 17; Dec 89833323870681336 17; Dec 23723379504183550 17], Dec 31627117781557993 19);
  ([Dec 59171732124782495 17; Dec 89833323870681336 17; Dec 40828267875217511 17], Dec 36564870030944630 19);
  ([Dec 59171732124782495 17; Dec 89833323870681336 17; Dec 59171732124782495 17], Dec 36564870030944630 19);
  ([Dec 59171732124782495 17; Dec 89833323870681336 17; Dec 76276620495816450 17], Dec 31627117781557993 19);
  ([Dec 59171732124782495 17; Dec 89833323870681336 17; Dec 89833323870681336 17], Dec 22419898530869299 19);
  ([Dec 59171732124782495 17; Dec 89833323870681336 17; Dec 98014492824876809 17], Dec 10205607315557739 19);
  ([Dec 76276620495816450 17; Dec 89833323870681336 17; Dec 19855071751231912 18], Dec 88274331162209202 20);
  ([Dec 76276620495816450 17; Dec 89833323870681336 17; Dec 10166676129318664 17], Dec 19392295689449870 19);
  ([Dec 76276620495816450 17; Dec 89833323870681336 17; Dec 23723379504183550 17], Dec 27356163944299962 19);
  ([Dec 76276620495816450 17; Dec 89833323870681336 17; Dec 40828267875217511 17], Dec 31627117781557988 19);
  ([Dec 76276620495816450 17; Dec 89833323870681336 17; Dec 59171732124782495 17], Dec 31627117781557988 19);
  ([Dec 76276620495816450 17; Dec 89833323870681336 17; Dec 76276620495816450 17], Dec 27356163944299962 19);
  ([Dec 76276620495816450 17; Dec 89833323870681336 17; Dec 89833323870681336 17], Dec 19392295689449870 19);
  ([Dec 76276620495816450 17; Dec 89833323870681336 17; Dec 98014492824876809 17], Dec 88274331162209202 20);
  ([Dec 89833323870681336 17; Dec 89833323870681336 17; Dec 19855071751231912 18], Dec 62576095653303979 20);
  ([Dec 89833323870681336 17; Dec 89833323870681336 17; Dec 10166676129318664 17], Dec 13746851820041590 19);
  ([Dec 89833323870681336 17; Dec 89833323870681336 17; Dec 23723379504183550 17], Dec 19392295689449870 19);
  ([Dec 89833323870681336 17; Dec 89833323870681336 17; Dec 40828267875217511 17], Dec 22419898530869299 19);
  ([Dec 89833323870681336 17; Dec 89833323870681336 17; Dec 59171732124782495 17], Dec 22419898530869299 19);
  ([Dec 89833323870681336 17; Dec 89833323870681336 17; Dec 76276620495816450 17], Dec 19392295689449870 19);
  ([Dec 89833323870681336 17; Dec 89833323870681336 17; Dec 89833323870681336 17], Dec 13746851820041590 19);
  ([Dec 89833323870681336 17; Dec 89833323870681336 17; Dec 98014492824876809 17], Dec 62576095653303979 20);
  ([Dec 98014492824876809 17; Dec 89833323870681336 17; Dec 19855071751231912 18], Dec 28484832734594818 20);
  ([Dec 98014492824876809 17; Dec 89833323870681336 17; Dec 10166676129318664 17], Dec 62576095653303989 20);
  ([Dec 98014492824876809 17; Dec 89833323870681336 17; Dec 23723379504183550 17], Dec 88274331162209213 20);
  ([Dec 98014492824876809 17; Dec 89833323870681336 17; Dec 40828267875217511 17], Dec 10205607315557741 19);
  ([Dec 98014492824876809 17; Dec 89833323870681336 17; Dec 59171732124782495 17], Dec 10205607315557741 19);
  ([Dec 98014492824876809 17; Dec 89833323870681336 17; Dec 76276620495816450 17], Dec 88274331162209213 20);
  ([Dec 98014492824876809 17; Dec 89833323870681336 17; Dec 89833323870681336 17], Dec 62576095653303989 20);
  ([Dec 98014492824876809 17; Dec 89833323870681336 17; Dec 98014492824876809 17], Dec 28484832734594818 20);
  ([Dec 19855071751231912 18; Dec 98014492824876809 17; Dec 19855071751231912 18], Dec 12966384167098537 20);
  ([Dec 19855071751231912 18; Dec 98014492824876809 17; Dec 10166676129318664 17], Dec 28484832734594818 20);
  ([Dec 19855071751231912 18; Dec 98014492824876809 17; Dec 23723379504183550 17], Dec 40182749205782331 20);
  ([Dec 19855071751231912 18; Dec 98014492824876809 17; Dec 40828267875217511 17], Dec 46456240886174612 20);
  ([Dec 19855071751231912 18; Dec 98014492824876809 17; Dec 59171732124782495 17], Dec 46456240886174612 20);
  ([Dec 19855071751231912 18; Dec 98014492824876809 17; Dec 76276620495816450 17], Dec 40182749205782331 20);
  ([Dec 19855071751231912 18; Dec 98014492824876809 17; Dec 89833323870681336 17], Dec 28484832734594818 20);
  ([Dec 19855071751231912 18; Dec 98014492824876809 17; Dec 98014492824876809 17], Dec 12966384167098537 20);
  ([Dec 10166676129318664 17; Dec 98014492824876809 17; Dec 19855071751231912 18], Dec 28484832734594818 20);
  ([Dec 10166676129318664 17; Dec 98014492824876809 17; Dec 10166676129318664 17], Dec 62576095653303989 20);
  ([Dec 10166676129318664 17; Dec 98014492824876809 17; Dec 23723379504183550 17], Dec 88274331162209213 20);
  ([Dec 10166676129318664 17; Dec 98014492824876809 17; Dec 40828267875217511 17], Dec 10205607315557741 19);
  ([Dec 10166676129318664 17; Dec 98014492824876809 17; Dec 59171732124782495 17], Dec 10205607315557741 19);
  ([Dec 10166676129318664 17; Dec 98014492824876809 17; Dec 76276620495816450 17], Dec 88274331162209213 20);
  ([Dec 10166676129318664 17; Dec 98014492824876809 17; Dec 89833323870681336 17], Dec 62576095653303989 20);
  ([Dec 10166676129318664 17; Dec 98014492824876809 17; Dec 98014492824876809 17], Dec 28484832734594818 20);
  ([Dec 23723379504183550 17; Dec 98014492824876809 17; Dec 19855071751231912 18], Dec 40182749205782325 20);
  ([Dec 23723379504183550 17; Dec 98014492824876809 17; Dec 10166676129318664 17], Dec 88274331162209202 20);
  ([Dec 23723379504183550 17; Dec 98014492824876809 17; Dec 23723379504183550 17], Dec 12452610634751142 19);
  ([Dec 23723379504183550 17; Dec 98014492824876809 17; Dec 40828267875217511 17], Dec 14396762061927109 19);
  ([Dec 23723379504183550 17; Dec 98014492824876809 17; Dec 59171732124782495 17], Dec 14396762061927109 19);
  ([Dec 23723379504183550 17; Dec 98014492824876809 17; Dec 76276620495816450 17], Dec 12452610634751142 19);
  ([Dec 23723379504183550 17; Dec 98014492824876809 17; Dec 89833323870681336 17], Dec 88274331162209202 20);
  ([Dec 23723379504183550 17; Dec 98014492824876809 17; Dec 98014492824876809 17], Dec 40182749205782325 20);
  ([Dec 40828267875217511 17; Dec 98014492824876809 17; Dec 19855071751231912 18], Dec 46456240886174607 20);
  ([Dec 40828267875217511 17; Dec 98014492824876809 17; Dec 10166676129318664 17], Dec 10205607315557739 19);
  ([Dec 40828267875217511 17; Dec 98014492824876809 17; Dec 23723379504183550 17], Dec 14396762061927109 19);
  ([Dec 40828267875217511 17; Dec 98014492824876809 17; Dec 40828267875217511 17], Dec 16644442193457037 19);
  ([Dec 40828267875217511 17; Dec 98014492824876809 17; Dec 59171732124782495 17], Dec 16644442193457037 19);
  ([Dec 40828267875217511 17; Dec 98014492824876809 17; Dec 76276620495816450 17], Dec 14396762061927109 19);
  ([Dec 40828267875217511 17; Dec 98014492824876809 17; Dec 89833323870681336 17], Dec 10205607315557739 19);
  ([Dec 40828267875217511 17; Dec 98014492824876809 17; Dec 98014492824876809 17], Dec 46456240886174607 20);
  ([Dec 59171732124782495 17; Dec 98014492824876809 17; Dec 19855071751231912 18], Dec 46456240886174607 20);
  ([Dec 59171732124782495 17; Dec 98014492824876809 17; Dec 10166676129318664 17], Dec 10205607315557739 19);
  ([Dec 59171732124782495 17; Dec 98014492824876809 17; Dec 23723379504183550 17], Dec 14396762061927109 19);
  ([Dec 59171732124782495 17; Dec 98014492824876809 17; Dec 40828267875217511 17], Dec 16644442193457037 19);
  ([Dec 59171732124782495 17; Dec 98014492824876809 17; Dec 59171732124782495 17], Dec 16644442193457037 19);
  ([Dec 59171732124782495 17; Dec 98014492824876809 17; Dec 76276620495816450 17], Dec 14396762061927109 19);
  ([Dec 59171732124782495 17; Dec 98014492824876809 17; Dec 89833323870681336 17], Dec 10205607315557739 19);
  ([Dec 59171732124782495 17; Dec 98014492824876809 17; Dec 98014492824876809 17], Dec 46456240886174607 20);
  ([Dec 76276620495816450 17; Dec 98014492824876809 17; Dec 19855071751231912 18], Dec 40182749205782325 20);
  ([Dec 76276620495816450 17; Dec 98014492824876809 17; Dec 10166676129318664 17], Dec 88274331162209202 20);
  ([Dec 76276620495816450 17; Dec 98014492824876809 17; Dec 23723379504183550 17], Dec 12452610634751142 19);
  ([Dec 76276620495816450 17; Dec 98014492824876809 17; Dec 40828267875217511 17], Dec 14396762061927109 19);
  ([Dec 76276620495816450 17; Dec 98014492824876809 17; Dec 59171732124782495 17], Dec 14396762061927109 19);
  ([Dec 76276620495816450 17; Dec 98014492824876809 17; Dec 76276620495816450 17], Dec 12452610634751142 19);
  ([Dec 76276620495816450 17; Dec 98014492824876809 17; Dec 89833323870681336 17], Dec 88274331162209202 20);
  ([Dec 76276620495816450 17; Dec 98014492824876809 17; Dec 98014492824876809 17], Dec 40182749205782325 20);
  ([Dec 89833323870681336 17; Dec 98014492824876809 17; Dec 19855071751231912 18], Dec 28484832734594818 20);
  ([Dec 89833323870681336 17; Dec 98014492824876809 17; Dec 10166676129318664 17], Dec 62576095653303989 20);
  ([Dec 89833323870681336 17; Dec 98014492824876809 17; Dec 23723379504183550 17], Dec 88274331162209213 20);
  ([Dec 89833323870681336 17; Dec 98014492824876809 17; Dec 40828267875217511 17], Dec 10205607315557741 19);
  ([Dec 89833323870681336 17; Dec 98014492824876809 17; Dec 59171732124782495 17], Dec 10205607315557741 19);
  ([Dec 89833323870681336 17; Dec 98014492824876809 17; Dec 76276620495816450 17], Dec 88274331162209213 20);
  ([Dec 89833323870681336 17; Dec 98014492824876809 17; Dec 89833323870681336 17], Dec 62576095653303989 20);
  ([Dec 89833323870681336 17; Dec 98014492824876809 17; Dec 98014492824876809 17], Dec 28484832734594818 20);
  ([Dec 98014492824876809 17; Dec 98014492824876809 17; Dec 19855071751231912 18], Dec 12966384167098537 20);
  ([Dec 98014492824876809 17; Dec 98014492824876809 17; Dec 10166676129318664 17], Dec 28484832734594818 20);
  ([Dec 98014492824876809 17; Dec 98014492824876809 17; Dec 23723379504183550 17], Dec 40182749205782331 20);
  ([Dec 98014492824876809 17; Dec 98014492824876809 17; Dec 40828267875217511 17], Dec 46456240886174612 20);
  ([Dec 98014492824876809 17; Dec 98014492824876809 17; Dec 59171732124782495 17], Dec 46456240886174612 20);
  ([Dec 98014492824876809 17; Dec 98014492824876809 17; Dec 76276620495816450 17], Dec 40182749205782331 20);
  ([Dec 98014492824876809 17; Dec 98014492824876809 17; Dec 89833323870681336 17], Dec 28484832734594818 20);
  ([Dec 98014492824876809 17; Dec 98014492824876809 17; Dec 98014492824876809 17], Dec 12966384167098537 20)].

(** The switch of FillPointsAndWeights; other orders throw. *)
Definition Hexahedron_Fill (order : nat) : outcome rule :=
  match order with
  | 0%nat | 1%nat => Ok Hexahedron_1
  | 2%nat | 3%nat => Ok Hexahedron_3
  | 4%nat | 5%nat => Ok Hexahedron_5
  | 6%nat | 7%nat => Ok Hexahedron_7
  | 8%nat | 9%nat => Ok Hexahedron_9
  | 10%nat | 11%nat => Ok Hexahedron_11
  | 12%nat | 13%nat => Ok Hexahedron_13
  | 14%nat | 15%nat => Ok Hexahedron_15
  | _ => Throw
  end.
