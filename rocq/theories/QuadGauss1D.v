(** * The tables of GeDiM/src/Quadrature/Quadrature_Gauss1D.hpp *)
From Verif Require Import Base QuadModel.
Local Open Scope Z_scope.

(** FillPointsAndWeights, order 0, 1: Quadrature_Gauss1D.hpp:33-38. *)
Definition Gauss1D_1 : rule := Rule true [
  ([Dec 50000000000000000 17], Dec 10000000000000000 16)].

(** FillPointsAndWeights, order 2, 3: Quadrature_Gauss1D.hpp:41-48. *)
Definition Gauss1D_3 : rule := Rule true [
  ([Dec 21132486540518713 17], Dec 50000000000000000 17);
  ([Dec 78867513459481287 17], Dec 50000000000000000 17)].

(** FillPointsAndWeights, order 4, 5: Quadrature_Gauss1D.hpp:51-60. *)
Definition Gauss1D_5 : rule := Rule true [
  ([Dec 11270166537925830 17], Dec 27777777777777779 17);
  ([Dec 50000000000000000 17], Dec 44444444444444442 17);
  ([Dec 88729833462074170 17], Dec 27777777777777779 17)].

(** FillPointsAndWeights, order 6, 7: Quadrature_Gauss1D.hpp:63-74. *)
Definition Gauss1D_7 : rule := Rule true [
  ([Dec 69431844202973714 18], Dec 17392742256872692 17);
  ([Dec 33000947820757187 17], Dec 32607257743127305 17);
  ([Dec 66999052179242813 17], Dec 32607257743127305 17);
  ([Dec 93056815579702623 17], Dec 17392742256872692 17)].

(** FillPointsAndWeights, order 8, 9: Quadrature_Gauss1D.hpp:77-90. *)
Definition Gauss1D_9 : rule := Rule true [
  ([Dec 46910077030668018 18], Dec 11846344252809454 17);
  ([Dec 23076534494715845 17], Dec 23931433524968324 17);
  ([Dec 50000000000000000 17], Dec 28444444444444444 17);
  ([Dec 76923465505284150 17], Dec 23931433524968324 17);
  ([Dec 95308992296933193 17], Dec 11846344252809454 17)].

(** FillPointsAndWeights, order 10, 11: Quadrature_Gauss1D.hpp:93-108. *)
Definition Gauss1D_11 : rule := Rule true [
  ([Dec 33765242898423975 18], Dec 85662246189585178 18);
  ([Dec 16939530676686776 17], Dec 18038078652406930 17);
  ([Dec 38069040695840156 17], Dec 23395696728634552 17);
  ([Dec 61930959304159849 17], Dec 23395696728634552 17);
  ([Dec 83060469323313224 17], Dec 18038078652406930 17);
  ([Dec 96623475710157603 17], Dec 85662246189585178 18)].

(** FillPointsAndWeights, order 12, 13: Quadrature_Gauss1D.hpp:111-128. *)
Definition Gauss1D_13 : rule := Rule true [
  ([Dec 25446043828620757 18], Dec 64742483084434851 18);
  ([Dec 12923440720030277 17], Dec 13985269574463832 17);
  ([Dec 29707742431130141 17], Dec 19091502525255946 17);
  ([Dec 50000000000000000 17], Dec 20897959183673470 17);
  ([Dec 70292257568869854 17], Dec 19091502525255946 17);
  ([Dec 87076559279969723 17], Dec 13985269574463832 17);
  ([Dec 97455395617137919 17], Dec 64742483084434851 18)].

(** FillPointsAndWeights, order 14, 15: Quadrature_Gauss1D.hpp:131-150. *)
Definition Gauss1D_15 : rule := Rule true [
  ([Dec 19855071751231912 18], Dec 50614268145188129 18);
  ([Dec 10166676129318664 17], Dec 11119051722668724 17);
  ([Dec 23723379504183550 17], Dec 15685332293894363 17);
  ([Dec 40828267875217511 17], Dec 18134189168918100 17);
  ([Dec 59171732124782495 17], Dec 18134189168918100 17);
  ([Dec 76276620495816450 17], Dec 15685332293894363 17);
  ([Dec 89833323870681336 17], Dec 11119051722668724 17);
  ([Dec 98014492824876809 17], Dec 50614268145188129 18)].

(** FillPointsAndWeights, order 16, 17: Quadrature_Gauss1D.hpp:153-174. *)
Definition Gauss1D_17 : rule := Rule true [
  ([Dec 15919880246186957 18], Dec 40637194180787206 18);
  ([Dec 81984446336682115 18], Dec 90324080347428698 18);
  ([Dec 19331428364970482 17], Dec 13030534820146772 17);
  ([Dec 33787328829809554 17], Dec 15617353852000143 17);
  ([Dec 50000000000000000 17], Dec 16511967750062989 17);
  ([Dec 66212671170190451 17], Dec 15617353852000143 17);
  ([Dec 80668571635029518 17], Dec 13030534820146772 17);
  ([Dec 91801555366331788 17], Dec 90324080347428698 18);
  ([Dec 98408011975381304 17], Dec 40637194180787206 18)].

(** FillPointsAndWeights, order 18, 19: Quadrature_Gauss1D.hpp:177-200. *)
Definition Gauss1D_19 : rule := Rule true [
  ([Dec 13046735741414128 18], Dec 33335672154344069 18);
  ([Dec 67468316655507732 18], Dec 74725674575290293 18);
  ([Dec 16029521585048778 17], Dec 10954318125799102 17);
  ([Dec 28330230293537639 17], Dec 13463335965499817 17);
  ([Dec 42556283050918442 17], Dec 14776211235737644 17);
  ([Dec 57443716949081558 17], Dec 14776211235737644 17);
  ([Dec 71669769706462361 17], Dec 13463335965499817 17);
  ([Dec 83970478414951222 17], Dec 10954318125799102 17);
  ([Dec 93253168334449232 17], Dec 74725674575290293 18);
  ([Dec 98695326425858587 17], Dec 33335672154344069 18)].

(** FillPointsAndWeights, order 20, 21: Quadrature_Gauss1D.hpp:203-228. *)
Definition Gauss1D_21 : rule := Rule true [
  ([Dec 10885670926971514 18], Dec 27834283558086832 18);
  ([Dec 56468700115952342 18], Dec 62790184732452306 18);
  ([Dec 13492399721297532 17], Dec 93145105463867131 18);
  ([Dec 24045193539659410 17], Dec 11659688229599524 17);
  ([Dec 36522842202382755 17], Dec 13140227225512333 17);
  ([Dec 50000000000000000 17], Dec 13646254338895031 17);
  ([Dec 63477157797617245 17], Dec 13140227225512333 17);
  ([Dec 75954806460340585 17], Dec 11659688229599524 17);
  ([Dec 86507600278702468 17], Dec 93145105463867131 18);
  ([Dec 94353129988404771 17], Dec 62790184732452306 18);
  ([Dec 98911432907302843 17], Dec 27834283558086832 18)].

(** FillPointsAndWeights, order 22, 23: Quadrature_Gauss1D.hpp:231-258. *)
Definition Gauss1D_23 : rule := Rule true [
  ([Dec 92196828766403782 19], Dec 23587668193255914 18);
  ([Dec 47941371814762546 18], Dec 53469662997659213 18);
  ([Dec 11504866290284765 17], Dec 80039164271673111 18);
  ([Dec 20634102285669126 17], Dec 10158371336153296 17);
  ([Dec 31608425050090994 17], Dec 11674626826917740 17);
  ([Dec 43738329574426554 17], Dec 12457352290670139 17);
  ([Dec 56261670425573440 17], Dec 12457352290670139 17);
  ([Dec 68391574949909006 17], Dec 11674626826917740 17);
  ([Dec 79365897714330869 17], Dec 10158371336153296 17);
  ([Dec 88495133709715235 17], Dec 80039164271673111 18);
  ([Dec 95205862818523745 17], Dec 53469662997659213 18);
  ([Dec 99078031712335957 17], Dec 23587668193255914 18)].

(** FillPointsAndWeights, order 24, 25: Quadrature_Gauss1D.hpp:261-290. *)
Definition Gauss1D_25 : rule := Rule true [
  ([Dec 79084726407059325 19], Dec 20242002382657939 18);
  ([Dec 41200800388511039 18], Dec 46060749918864226 18);
  ([Dec 99210954633345061 18], Dec 69436755109893625 18);
  ([Dec 17882533027982989 17], Dec 89072990380972869 18);
  ([Dec 27575362448177654 17], Dec 10390802376844425 17);
  ([Dec 38477084202243261 17], Dec 11314159013144862 17);
  ([Dec 50000000000000000 17], Dec 11627577661543695 17);
  ([Dec 61522915797756739 17], Dec 11314159013144862 17);
  ([Dec 72424637551822346 17], Dec 10390802376844425 17);
  ([Dec 82117466972017006 17], Dec 89072990380972869 18);
  ([Dec 90078904536665494 17], Dec 69436755109893625 18);
  ([Dec 95879919961148896 17], Dec 46060749918864226 18);
  ([Dec 99209152735929407 17], Dec 20242002382657939 18)].

(** FillPointsAndWeights, order 26, 27: Quadrature_Gauss1D.hpp:293-324. *)
Definition Gauss1D_27 : rule := Rule true [
  ([Dec 68580956515938429 19], Dec 17559730165875930 18);
  ([Dec 35782558168213241 18], Dec 40079043579880104 18);
  ([Dec 86399342465117490 18], Dec 60759285343951593 18);
  ([Dec 15635354759415726 17], Dec 78601583579096773 18);
  ([Dec 24237568182092295 17], Dec 92769198738968911 18);
  ([Dec 34044381553605513 17], Dec 10259923186064780 17);
  ([Dec 44597252564632817 17], Dec 10763192673157890 17);
  ([Dec 55402747435367183 17], Dec 10763192673157890 17);
  ([Dec 65955618446394482 17], Dec 10259923186064780 17);
  ([Dec 75762431817907705 17], Dec 92769198738968911 18);
  ([Dec 84364645240584268 17], Dec 78601583579096773 18);
  ([Dec 91360065753488251 17], Dec 60759285343951593 18);
  ([Dec 96421744183178681 17], Dec 40079043579880104 18);
  ([Dec 99314190434840621 17], Dec 17559730165875930 18)].

(** FillPointsAndWeights, order 28, 29: Quadrature_Gauss1D.hpp:327-360. *)
Definition Gauss1D_29 : rule := Rule true [
  ([Dec 60037409897573113 19], Dec 15376620998058635 18);
  ([Dec 31363303799647024 18], Dec 35183023744054062 18);
  ([Dec 75896708294786397 18], Dec 53579610233585970 18);
  ([Dec 13779113431991497 17], Dec 69785338963077162 18);
  ([Dec 21451391369573058 17], Dec 83134602908496960 18);
  ([Dec 30292432646121831 17], Dec 93080500007781106 18);
  ([Dec 39940295300128276 17], Dec 99215742663555789 18);
  ([Dec 50000000000000000 17], Dec 10128912096278064 17);
  ([Dec 60059704699871730 17], Dec 99215742663555789 18);
  ([Dec 69707567353878175 17], Dec 93080500007781106 18);
  ([Dec 78548608630426942 17], Dec 83134602908496960 18);
  ([Dec 86220886568008503 17], Dec 69785338963077162 18);
  ([Dec 92410329170521366 17], Dec 53579610233585970 18);
  ([Dec 96863669620035298 17], Dec 35183023744054062 18);
  ([Dec 99399625901024269 17], Dec 15376620998058635 18)].

(** FillPointsAndWeights, order 30, 31: Quadrature_Gauss1D.hpp:363-398. *)
Definition Gauss1D_31 : rule := Rule true [
  ([Dec 52995325041750307 19], Dec 13576229705877048 18);
  ([Dec 27712488463383700 18], Dec 31126761969323947 18);
  ([Dec 67184398806084122 18], Dec 47579255841246393 18);
  ([Dec 12229779582249850 17], Dec 62314485627766938 18);
  ([Dec 19106187779867811 17], Dec 74797994408288368 18);
  ([Dec 27099161117138632 17], Dec 84578259697501268 18);
  ([Dec 35919822461037054 17], Dec 91301707522461792 18);
  ([Dec 45249374508118129 17], Dec 94725305227534251 18);
  ([Dec 54750625491881877 17], Dec 94725305227534251 18);
  ([Dec 64080177538962946 17], Dec 91301707522461792 18);
  ([Dec 72900838882861363 17], Dec 84578259697501268 18);
  ([Dec 80893812220132189 17], Dec 74797994408288368 18);
  ([Dec 87770220417750155 17], Dec 62314485627766938 18);
  ([Dec 93281560119391593 17], Dec 47579255841246393 18);
  ([Dec 97228751153661630 17], Dec 31126761969323947 18);
  ([Dec 99470046749582497 17], Dec 13576229705877048 18)].

(** The switch of FillPointsAndWeights; other orders throw. *)
Definition Gauss1D_Fill (order : nat) : outcome rule :=
  match order with
  | 0%nat | 1%nat => Ok Gauss1D_1
  | 2%nat | 3%nat => Ok Gauss1D_3
  | 4%nat | 5%nat => Ok Gauss1D_5
  | 6%nat | 7%nat => Ok Gauss1D_7
  | 8%nat | 9%nat => Ok Gauss1D_9
  | 10%nat | 11%nat => Ok Gauss1D_11
  | 12%nat | 13%nat => Ok Gauss1D_13
  | 14%nat | 15%nat => Ok Gauss1D_15
  | 16%nat | 17%nat => Ok Gauss1D_17
  | 18%nat | 19%nat => Ok Gauss1D_19
  | 20%nat | 21%nat => Ok Gauss1D_21
  | 22%nat | 23%nat => Ok Gauss1D_23
  | 24%nat | 25%nat => Ok Gauss1D_25
  | 26%nat | 27%nat => Ok Gauss1D_27
  | 28%nat | 29%nat => Ok Gauss1D_29
  | 30%nat | 31%nat => Ok Gauss1D_31
  | _ => Throw
  end.
