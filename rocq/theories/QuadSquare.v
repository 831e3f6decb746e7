(** * The tables of GeDiM/src/Quadrature/Quadrature_Gauss2D_Square.cpp *)
From Verif Require Import Base QuadModel.
Local Open Scope Z_scope.

(** FillPointsAndWeights, order 0, 1: Quadrature_Gauss2D_Square.cpp:26-32. *)
Definition Square_1 : rule := Rule true [
  ([Dec 50000000000000000 17; Dec 50000000000000000 17], Dec 10000000000000000 16)].

(** FillPointsAndWeights, order 2, 3: Quadrature_Gauss2D_Square.cpp:35-50. *)
Definition Square_3 : rule := Rule true [
  ([Dec 21132486540518713 17; Dec 21132486540518713 17], Dec 25000000000000000 17);
  ([Dec 78867513459481287 17; Dec 21132486540518713 17], Dec 25000000000000000 17);
  ([Dec 21132486540518713 17; Dec 78867513459481287 17], Dec 25000000000000000 17);
  ([Dec 78867513459481287 17; Dec 78867513459481287 17], Dec 25000000000000000 17)].

(** FillPointsAndWeights, order 4, 5: Quadrature_Gauss2D_Square.cpp:53-83. *)
Definition Square_5 : rule := Rule true [
  ([Dec 11270166537925830 17; Dec 11270166537925830 17], Dec 77160493827160503 18);
  ([Dec 50000000000000000 17; Dec 11270166537925830 17], Dec 12345679012345678 17);
  ([Dec 88729833462074170 17; Dec 11270166537925830 17], Dec 77160493827160503 18);
  ([Dec 11270166537925830 17; Dec 50000000000000000 17], Dec 12345679012345678 17);
  ([Dec 50000000000000000 17; Dec 50000000000000000 17], Dec 19753086419753085 17);
  ([Dec 88729833462074170 17; Dec 50000000000000000 17], Dec 12345679012345678 17);
  ([Dec 11270166537925830 17; Dec 88729833462074170 17], Dec 77160493827160503 18);
  ([Dec 50000000000000000 17; Dec 88729833462074170 17], Dec 12345679012345678 17);
  ([Dec 88729833462074170 17; Dec 88729833462074170 17], Dec 77160493827160503 18)].

(** FillPointsAndWeights, order 6, 7: Quadrature_Gauss2D_Square.cpp:86-137. *)
Definition Square_7 : rule := Rule true [
  ([Dec 69431844202973714 18; Dec 69431844202973714 18], Dec 30250748321400501 18);
  ([Dec 33000947820757187 17; Dec 69431844202973714 18], Dec 56712962962962958 18);
  ([Dec 66999052179242813 17; Dec 69431844202973714 18], Dec 56712962962962958 18);
  ([Dec 93056815579702623 17; Dec 69431844202973714 18], Dec 30250748321400501 18);
  ([Dec 69431844202973714 18; Dec 33000947820757187 17], Dec 56712962962962958 18);
  ([Dec 33000947820757187 17; Dec 33000947820757187 17], Dec 10632332575267356 17);
  ([Dec 66999052179242813 17; Dec 33000947820757187 17], Dec 10632332575267356 17);
  ([Dec 93056815579702623 17; Dec 33000947820757187 17], Dec 56712962962962958 18);
  ([Dec 69431844202973714 18; Dec 66999052179242813 17], Dec 56712962962962958 18);
  ([Dec 33000947820757187 17; Dec 66999052179242813 17], Dec 10632332575267356 17);
  ([Dec 66999052179242813 17; Dec 66999052179242813 17], Dec 10632332575267356 17);
  ([Dec 93056815579702623 17; Dec 66999052179242813 17], Dec 56712962962962958 18);
  ([Dec 69431844202973714 18; Dec 93056815579702623 17], Dec 30250748321400501 18);
  ([Dec 33000947820757187 17; Dec 93056815579702623 17], Dec 56712962962962958 18);
  ([Dec 66999052179242813 17; Dec 93056815579702623 17], Dec 56712962962962958 18);
  ([Dec 93056815579702623 17; Dec 93056815579702623 17], Dec 30250748321400501 18)].

(** FillPointsAndWeights, order 8, 9: Quadrature_Gauss2D_Square.cpp:140-218. *)
Definition Square_9 : rule := Rule true [
  ([Dec 46910077030668018 18; Dec 46910077030668018 18], Dec 14033587215607159 18);
  ([Dec 23076534494715845 17; Dec 46910077030668018 18], Dec 28350000000000000 18);
  ([Dec 50000000000000000 17; Dec 46910077030668018 18], Dec 33696268096880228 18);
  ([Dec 76923465505284150 17; Dec 46910077030668018 18], Dec 28350000000000000 18);
  ([Dec 95308992296933193 17; Dec 46910077030668018 18], Dec 14033587215607159 18);
  ([Dec 46910077030668018 18; Dec 23076534494715845 17], Dec 28350000000000000 18);
  ([Dec 23076534494715845 17; Dec 23076534494715845 17], Dec 57271351055997781 18);
  ([Dec 50000000000000000 17; Dec 23076534494715845 17], Dec 68071633137687673 18);
  ([Dec 76923465505284150 17; Dec 23076534494715845 17], Dec 57271351055997781 18);
  ([Dec 95308992296933193 17; Dec 23076534494715845 17], Dec 28350000000000000 18);
  ([Dec 46910077030668018 18; Dec 50000000000000000 17], Dec 33696268096880228 18);
  ([Dec 23076534494715845 17; Dec 50000000000000000 17], Dec 68071633137687673 18);
  ([Dec 50000000000000000 17; Dec 50000000000000000 17], Dec 80908641975308643 18);
  ([Dec 76923465505284150 17; Dec 50000000000000000 17], Dec 68071633137687673 18);
  ([Dec 95308992296933193 17; Dec 50000000000000000 17], Dec 33696268096880228 18);
  ([Dec 46910077030668018 18; Dec 76923465505284150 17], Dec 28350000000000000 18);
  ([Dec 23076534494715845 17; Dec 76923465505284150 17], Dec 57271351055997781 18);
  ([Dec 50000000000000000 17; Dec 76923465505284150 17], Dec 68071633137687673 18);
  ([Dec 76923465505284150 17; Dec 76923465505284150 17], Dec 57271351055997781 18);
  ([Dec 95308992296933193 17; Dec 76923465505284150 17], Dec 28350000000000000 18);
  ([Dec 46910077030668018 18; Dec 95308992296933193 17], Dec 14033587215607159 18);
  ([Dec 23076534494715845 17; Dec 95308992296933193 17], Dec 28350000000000000 18);
  ([Dec 50000000000000000 17; Dec 95308992296933193 17], Dec 33696268096880228 18);
  ([Dec 76923465505284150 17; Dec 95308992296933193 17], Dec 28350000000000000 18);
  ([Dec 95308992296933193 17; Dec 95308992296933193 17], Dec 14033587215607159 18)].

(** FillPointsAndWeights, order 10, 11: Quadrature_Gauss2D_Square.cpp:221-332. *)
Definition Square_11 : rule := Rule true [
  ([Dec 33765242898423975 18; Dec 33765242898423975 18], Dec 73380204222451006 19);
  ([Dec 16939530676686776 17; Dec 33765242898423975 18], Dec 15451823343095833 18);
  ([Dec 38069040695840156 17; Dec 33765242898423975 18], Dec 20041279329451656 18);
  ([Dec 61930959304159849 17; Dec 33765242898423975 18], Dec 20041279329451656 18);
  ([Dec 83060469323313224 17; Dec 33765242898423975 18], Dec 15451823343095833 18);
  ([Dec 96623475710157603 17; Dec 33765242898423975 18], Dec 73380204222451006 19);
  ([Dec 33765242898423975 18; Dec 16939530676686776 17], Dec 15451823343095833 18);
  ([Dec 16939530676686776 17; Dec 16939530676686776 17], Dec 32537228147041859 18);
  ([Dec 38069040695840156 17; Dec 16939530676686776 17], Dec 42201341771896959 18);
  ([Dec 61930959304159849 17; Dec 16939530676686776 17], Dec 42201341771896959 18);
  ([Dec 83060469323313224 17; Dec 16939530676686776 17], Dec 32537228147041859 18);
  ([Dec 96623475710157603 17; Dec 16939530676686776 17], Dec 15451823343095833 18);
  ([Dec 33765242898423975 18; Dec 38069040695840156 17], Dec 20041279329451656 18);
  ([Dec 16939530676686776 17; Dec 38069040695840156 17], Dec 42201341771896959 18);
  ([Dec 38069040695840156 17; Dec 38069040695840156 17], Dec 54735862541824144 18);
  ([Dec 61930959304159849 17; Dec 38069040695840156 17], Dec 54735862541824144 18);
  ([Dec 83060469323313224 17; Dec 38069040695840156 17], Dec 42201341771896959 18);
  ([Dec 96623475710157603 17; Dec 38069040695840156 17], Dec 20041279329451656 18);
  ([Dec 33765242898423975 18; Dec 61930959304159849 17], Dec 20041279329451656 18);
  ([Dec 16939530676686776 17; Dec 61930959304159849 17], Dec 42201341771896959 18);
  ([Dec 38069040695840156 17; Dec 61930959304159849 17], Dec 54735862541824144 18);
  ([Dec 61930959304159849 17; Dec 61930959304159849 17], Dec 54735862541824144 18);
  ([Dec 83060469323313224 17; Dec 61930959304159849 17], Dec 42201341771896959 18);
  ([Dec 96623475710157603 17; Dec 61930959304159849 17], Dec 20041279329451656 18);
  ([Dec 33765242898423975 18; Dec 83060469323313224 17], Dec 15451823343095833 18);
  ([Dec 16939530676686776 17; Dec 83060469323313224 17], Dec 32537228147041859 18);
  ([Dec 38069040695840156 17; Dec 83060469323313224 17], Dec 42201341771896959 18);
  ([Dec 61930959304159849 17; Dec 83060469323313224 17], Dec 42201341771896959 18);
  ([Dec 83060469323313224 17; Dec 83060469323313224 17], Dec 32537228147041859 18);
  ([Dec 96623475710157603 17; Dec 83060469323313224 17], Dec 15451823343095833 18);
  ([Dec 33765242898423975 18; Dec 96623475710157603 17], Dec 73380204222451006 19);
  ([Dec 16939530676686776 17; Dec 96623475710157603 17], Dec 15451823343095833 18);
  ([Dec 38069040695840156 17; Dec 96623475710157603 17], Dec 20041279329451656 18);
  ([Dec 61930959304159849 17; Dec 96623475710157603 17], Dec 20041279329451656 18);
  ([Dec 83060469323313224 17; Dec 96623475710157603 17], Dec 15451823343095833 18);
  ([Dec 96623475710157603 17; Dec 96623475710157603 17], Dec 73380204222451006 19)].

(** FillPointsAndWeights, order 12, 13: Quadrature_Gauss2D_Square.cpp:335-485. *)
Definition Square_13 : rule := Rule true [
  ([Dec 25446043828620757 18; Dec 25446043828620757 18], Dec 41915891159383326 19);
  ([Dec 12923440720030277 17; Dec 25446043828620757 18], Dec 90544107885598604 19);
  ([Dec 29707742431130141 17; Dec 25446043828620757 18], Dec 12360312792978284 18);
  ([Dec 50000000000000000 17; Dec 25446043828620757 18], Dec 13529857689481896 18);
  ([Dec 70292257568869854 17; Dec 25446043828620757 18], Dec 12360312792978284 18);
  ([Dec 87076559279969723 17; Dec 25446043828620757 18], Dec 90544107885598604 19);
  ([Dec 97455395617137919 17; Dec 25446043828620757 18], Dec 41915891159383326 19);
  ([Dec 25446043828620757 18; Dec 12923440720030277 17], Dec 90544107885598604 19);
  ([Dec 12923440720030277 17; Dec 12923440720030277 17], Dec 19558776507042377 18);
  ([Dec 29707742431130141 17; Dec 12923440720030277 17], Dec 26699980939726139 18);
  ([Dec 50000000000000000 17; Dec 12923440720030277 17], Dec 29226359273981560 18);
  ([Dec 70292257568869854 17; Dec 12923440720030277 17], Dec 26699980939726139 18);
  ([Dec 87076559279969723 17; Dec 12923440720030277 17], Dec 19558776507042377 18);
  ([Dec 97455395617137919 17; Dec 12923440720030277 17], Dec 90544107885598604 19);
  ([Dec 25446043828620757 18; Dec 29707742431130141 17], Dec 12360312792978284 18);
  ([Dec 12923440720030277 17; Dec 29707742431130141 17], Dec 26699980939726139 18);
  ([Dec 29707742431130141 17; Dec 29707742431130141 17], Dec 36448546867185419 18);
  ([Dec 50000000000000000 17; Dec 29707742431130141 17], Dec 39897344052779775 18);
  ([Dec 70292257568869854 17; Dec 29707742431130141 17], Dec 36448546867185419 18);
  ([Dec 87076559279969723 17; Dec 29707742431130141 17], Dec 26699980939726139 18);
  ([Dec 97455395617137919 17; Dec 29707742431130141 17], Dec 12360312792978284 18);
  ([Dec 25446043828620757 18; Dec 50000000000000000 17], Dec 13529857689481896 18);
  ([Dec 12923440720030277 17; Dec 50000000000000000 17], Dec 29226359273981560 18);
  ([Dec 29707742431130141 17; Dec 50000000000000000 17], Dec 39897344052779775 18);
  ([Dec 50000000000000000 17; Dec 50000000000000000 17], Dec 43672469804248236 18);
  ([Dec 70292257568869854 17; Dec 50000000000000000 17], Dec 39897344052779775 18);
  ([Dec 87076559279969723 17; Dec 50000000000000000 17], Dec 29226359273981560 18);
  ([Dec 97455395617137919 17; Dec 50000000000000000 17], Dec 13529857689481896 18);
  ([Dec 25446043828620757 18; Dec 70292257568869854 17], Dec 12360312792978284 18);
  ([Dec 12923440720030277 17; Dec 70292257568869854 17], Dec 26699980939726139 18);
  ([Dec 29707742431130141 17; Dec 70292257568869854 17], Dec 36448546867185419 18);
  ([Dec 50000000000000000 17; Dec 70292257568869854 17], Dec 39897344052779775 18);
  ([Dec 70292257568869854 17; Dec 70292257568869854 17], Dec 36448546867185419 18);
  ([Dec 87076559279969723 17; Dec 70292257568869854 17], Dec 26699980939726139 18);
  ([Dec 97455395617137919 17; Dec 70292257568869854 17], Dec 12360312792978284 18);
  ([Dec 25446043828620757 18; Dec 87076559279969723 17], Dec 90544107885598604 19);
  ([Dec 12923440720030277 17; Dec 87076559279969723 17], Dec 19558776507042377 18);
  ([Dec 29707742431130141 17; Dec 87076559279969723 17], Dec 26699980939726139 18);
  ([Dec 50000000000000000 17; Dec 87076559279969723 17], Dec 29226359273981560 18);
  ([Dec 70292257568869854 17; Dec 87076559279969723 17], Dec 26699980939726139 18);
  ([Dec 87076559279969723 17; Dec 87076559279969723 17], Dec 19558776507042377 18);
  ([Dec 97455395617137919 17; Dec 87076559279969723 17], Dec 90544107885598604 19);
  ([Dec 25446043828620757 18; Dec 97455395617137919 17], Dec 41915891159383326 19);
  ([Dec 12923440720030277 17; Dec 97455395617137919 17], Dec 90544107885598604 19);
  ([Dec 29707742431130141 17; Dec 97455395617137919 17], Dec 12360312792978284 18);
  ([Dec 50000000000000000 17; Dec 97455395617137919 17], Dec 13529857689481896 18);
  ([Dec 70292257568869854 17; Dec 97455395617137919 17], Dec 12360312792978284 18);
  ([Dec 87076559279969723 17; Dec 97455395617137919 17], Dec 90544107885598604 19);
  ([Dec 97455395617137919 17; Dec 97455395617137919 17], Dec 41915891159383326 19)].

(** FillPointsAndWeights, order 14, 15: Quadrature_Gauss2D_Square.cpp:488-683. *)
Definition Square_15 : rule := Rule true [
  ([Dec 19855071751231912 18; Dec 19855071751231912 18], Dec 25618041398730060 19);
  ([Dec 10166676129318664 17; Dec 19855071751231912 18], Dec 56278266541137083 19);
  ([Dec 23723379504183550 17; Dec 19855071751231912 18], Dec 79390161466954805 19);
  ([Dec 40828267875217511 17; Dec 19855071751231912 18], Dec 91784871319118694 19);
  ([Dec 59171732124782495 17; Dec 19855071751231912 18], Dec 91784871319118694 19);
  ([Dec 76276620495816450 17; Dec 19855071751231912 18], Dec 79390161466954805 19);
  ([Dec 89833323870681336 17; Dec 19855071751231912 18], Dec 56278266541137083 19);
  ([Dec 98014492824876809 17; Dec 19855071751231912 18], Dec 25618041398730060 19);
  ([Dec 19855071751231912 18; Dec 10166676129318664 17], Dec 56278266541137083 19);
  ([Dec 10166676129318664 17; Dec 10166676129318664 17], Dec 12363331121138231 18);
  ([Dec 23723379504183550 17; Dec 10166676129318664 17], Dec 17440602106305748 18);
  ([Dec 40828267875217511 17; Dec 10166676129318664 17], Dec 20163498731785932 18);
  ([Dec 59171732124782495 17; Dec 10166676129318664 17], Dec 20163498731785932 18);
  ([Dec 76276620495816450 17; Dec 10166676129318664 17], Dec 17440602106305748 18);
  ([Dec 89833323870681336 17; Dec 10166676129318664 17], Dec 12363331121138231 18);
  ([Dec 98014492824876809 17; Dec 10166676129318664 17], Dec 56278266541137083 19);
  ([Dec 19855071751231912 18; Dec 23723379504183550 17], Dec 79390161466954805 19);
  ([Dec 10166676129318664 17; Dec 23723379504183550 17], Dec 17440602106305748 18);
  ([Dec 23723379504183550 17; Dec 23723379504183550 17], Dec 24602964916988542 18);
  ([Dec 40828267875217511 17; Dec 23723379504183550 17], Dec 28444078299482044 18);
  ([Dec 59171732124782495 17; Dec 23723379504183550 17], Dec 28444078299482044 18);
  ([Dec 76276620495816450 17; Dec 23723379504183550 17], Dec 24602964916988542 18);
  ([Dec 89833323870681336 17; Dec 23723379504183550 17], Dec 17440602106305748 18);
  ([Dec 98014492824876809 17; Dec 23723379504183550 17], Dec 79390161466954805 19);
  ([Dec 19855071751231912 18; Dec 40828267875217511 17], Dec 91784871319118694 19);
  ([Dec 10166676129318664 17; Dec 40828267875217511 17], Dec 20163498731785932 18);
  ([Dec 23723379504183550 17; Dec 40828267875217511 17], Dec 28444078299482044 18);
  ([Dec 40828267875217511 17; Dec 40828267875217511 17], Dec 32884881681410648 18);
  ([Dec 59171732124782495 17; Dec 40828267875217511 17], Dec 32884881681410648 18);
  ([Dec 76276620495816450 17; Dec 40828267875217511 17], Dec 28444078299482044 18);
  ([Dec 89833323870681336 17; Dec 40828267875217511 17], Dec 20163498731785932 18);
  ([Dec 98014492824876809 17; Dec 40828267875217511 17], Dec 91784871319118694 19);
  ([Dec 19855071751231912 18; Dec 59171732124782495 17], Dec 91784871319118694 19);
  ([Dec 10166676129318664 17; Dec 59171732124782495 17], Dec 20163498731785932 18);
  ([Dec 23723379504183550 17; Dec 59171732124782495 17], Dec 28444078299482044 18);
  ([Dec 40828267875217511 17; Dec 59171732124782495 17], Dec 32884881681410648 18);
  ([Dec 59171732124782495 17; Dec 59171732124782495 17], Dec 32884881681410648 18);
  ([Dec 76276620495816450 17; Dec 59171732124782495 17], Dec 28444078299482044 18);
  ([Dec 89833323870681336 17; Dec 59171732124782495 17], Dec 20163498731785932 18);
  ([Dec 98014492824876809 17; Dec 59171732124782495 17], Dec 91784871319118694 19);
  ([Dec 19855071751231912 18; Dec 76276620495816450 17], Dec 79390161466954805 19);
  ([Dec 10166676129318664 17; Dec 76276620495816450 17], Dec 17440602106305748 18);
  ([Dec 23723379504183550 17; Dec 76276620495816450 17], Dec 24602964916988542 18);
  ([Dec 40828267875217511 17; Dec 76276620495816450 17], Dec 28444078299482044 18);
  ([Dec 59171732124782495 17; Dec 76276620495816450 17], Dec 28444078299482044 18);
  ([Dec 76276620495816450 17; Dec 76276620495816450 17], Dec 24602964916988542 18);
  ([Dec 89833323870681336 17; Dec 76276620495816450 17], Dec 17440602106305748 18);
  ([Dec 98014492824876809 17; Dec 76276620495816450 17], Dec 79390161466954805 19);
  ([Dec 19855071751231912 18; Dec 89833323870681336 17], Dec 56278266541137083 19);
  ([Dec 10166676129318664 17; Dec 89833323870681336 17], Dec 12363331121138231 18);
  ([Dec 23723379504183550 17; Dec 89833323870681336 17], Dec 17440602106305748 18);
  ([Dec 40828267875217511 17; Dec 89833323870681336 17], Dec 20163498731785932 18);
  ([Dec 59171732124782495 17; Dec 89833323870681336 17], Dec 20163498731785932 18);
  ([Dec 76276620495816450 17; Dec 89833323870681336 17], Dec 17440602106305748 18);
  ([Dec 89833323870681336 17; Dec 89833323870681336 17], Dec 12363331121138231 18);
  ([Dec 98014492824876809 17; Dec 89833323870681336 17], Dec 56278266541137083 19);
  ([Dec 19855071751231912 18; Dec 98014492824876809 17], Dec 25618041398730060 19);
  ([Dec 10166676129318664 17; Dec 98014492824876809 17], Dec 56278266541137083 19);
  ([Dec 23723379504183550 17; Dec 98014492824876809 17], Dec 79390161466954805 19);
  ([Dec 40828267875217511 17; Dec 98014492824876809 17], Dec 91784871319118694 19);
  ([Dec 59171732124782495 17; Dec 98014492824876809 17], Dec 91784871319118694 19);
  ([Dec 76276620495816450 17; Dec 98014492824876809 17], Dec 79390161466954805 19);
  ([Dec 89833323870681336 17; Dec 98014492824876809 17], Dec 56278266541137083 19);
  ([Dec 98014492824876809 17; Dec 98014492824876809 17], Dec 25618041398730060 19)].

(** FillPointsAndWeights, order 16, 17: Quadrature_Gauss2D_Square.cpp:686-932. *)
Definition Square_17 : rule := Rule true [
  ([Dec 15919880246186957 18; Dec 15919880246186957 18], Dec 16513815508870057 19);
  ([Dec 81984446336682115 18; Dec 15919880246186957 18], Dec 36705171922794856 19);
  ([Dec 19331428364970482 17; Dec 15919880246186957 18], Dec 52952437376581349 19);
  ([Dec 33787328829809554 17; Dec 15919880246186957 18], Dec 63464544107379485 19);
  ([Dec 50000000000000000 17; Dec 15919880246186957 18], Dec 67100003976620567 19);
  ([Dec 66212671170190451 17; Dec 15919880246186957 18], Dec 63464544107379485 19);
  ([Dec 80668571635029518 17; Dec 15919880246186957 18], Dec 52952437376581349 19);
  ([Dec 91801555366331788 17; Dec 15919880246186957 18], Dec 36705171922794856 19);
  ([Dec 98408011975381304 17; Dec 15919880246186957 18], Dec 16513815508870057 19);
  ([Dec 15919880246186957 18; Dec 81984446336682115 18], Dec 36705171922794856 19);
  ([Dec 81984446336682115 18; Dec 81984446336682115 18], Dec 81584394906087550 19);
  ([Dec 19331428364970482 17; Dec 81984446336682115 18], Dec 11769710740649043 18);
  ([Dec 33787328829809554 17; Dec 81984446336682115 18], Dec 14106231241422859 18);
  ([Dec 50000000000000000 17; Dec 81984446336682115 18], Dec 14914283017508408 18);
  ([Dec 66212671170190451 17; Dec 81984446336682115 18], Dec 14106231241422859 18);
  ([Dec 80668571635029518 17; Dec 81984446336682115 18], Dec 11769710740649043 18);
  ([Dec 91801555366331788 17; Dec 81984446336682115 18], Dec 81584394906087550 19);
  ([Dec 98408011975381304 17; Dec 81984446336682115 18], Dec 36705171922794856 19);
  ([Dec 15919880246186957 18; Dec 19331428364970482 17], Dec 52952437376581349 19);
  ([Dec 81984446336682115 18; Dec 19331428364970482 17], Dec 11769710740649043 18);
  ([Dec 19331428364970482 17; Dec 19331428364970482 17], Dec 16979483769905747 18);
  ([Dec 33787328829809554 17; Dec 19331428364970482 17], Dec 20350247316704120 18);
  ([Dec 50000000000000000 17; Dec 19331428364970482 17], Dec 21515977071633632 18);
  ([Dec 66212671170190451 17; Dec 19331428364970482 17], Dec 20350247316704120 18);
  ([Dec 80668571635029518 17; Dec 19331428364970482 17], Dec 16979483769905747 18);
  ([Dec 91801555366331788 17; Dec 19331428364970482 17], Dec 11769710740649043 18);
  ([Dec 98408011975381304 17; Dec 19331428364970482 17], Dec 52952437376581349 19);
  ([Dec 15919880246186957 18; Dec 33787328829809554 17], Dec 63464544107379485 19);
  ([Dec 81984446336682115 18; Dec 33787328829809554 17], Dec 14106231241422859 18);
  ([Dec 19331428364970482 17; Dec 33787328829809554 17], Dec 20350247316704120 18);
  ([Dec 33787328829809554 17; Dec 33787328829809554 17], Dec 24390174133858369 18);
  ([Dec 50000000000000000 17; Dec 33787328829809554 17], Dec 25787324314554837 18);
  ([Dec 66212671170190451 17; Dec 33787328829809554 17], Dec 24390174133858369 18);
  ([Dec 80668571635029518 17; Dec 33787328829809554 17], Dec 20350247316704120 18);
  ([Dec 91801555366331788 17; Dec 33787328829809554 17], Dec 14106231241422859 18);
  ([Dec 98408011975381304 17; Dec 33787328829809554 17], Dec 63464544107379485 19);
  ([Dec 15919880246186957 18; Dec 50000000000000000 17], Dec 67100003976620567 19);
  ([Dec 81984446336682115 18; Dec 50000000000000000 17], Dec 14914283017508408 18);
  ([Dec 19331428364970482 17; Dec 50000000000000000 17], Dec 21515977071633632 18);
  ([Dec 33787328829809554 17; Dec 50000000000000000 17], Dec 25787324314554837 18);
  ([Dec 50000000000000000 17; Dec 50000000000000000 17], Dec 27264507897912019 18);
  ([Dec 66212671170190451 17; Dec 50000000000000000 17], Dec 25787324314554837 18);
  ([Dec 80668571635029518 17; Dec 50000000000000000 17], Dec 21515977071633632 18);
  ([Dec 91801555366331788 17; Dec 50000000000000000 17], Dec 14914283017508408 18);
  ([Dec 98408011975381304 17; Dec 50000000000000000 17], Dec 67100003976620567 19);
  ([Dec 15919880246186957 18; Dec 66212671170190451 17], Dec 63464544107379485 19);
  ([Dec 81984446336682115 18; Dec 66212671170190451 17], Dec 14106231241422859 18);
  ([Dec 19331428364970482 17; Dec 66212671170190451 17], Dec 20350247316704120 18);
  ([Dec 33787328829809554 17; Dec 66212671170190451 17], Dec 24390174133858369 18);
  ([Dec 50000000000000000 17; Dec 66212671170190451 17], Dec 25787324314554837 18);
  ([Dec 66212671170190451 17; Dec 66212671170190451 17], Dec 24390174133858369 18);
  ([Dec 80668571635029518 17; Dec 66212671170190451 17], Dec 20350247316704120 18);
  ([Dec 91801555366331788 17; Dec 66212671170190451 17], Dec 14106231241422859 18);
  ([Dec 98408011975381304 17; Dec 66212671170190451 17], Dec 63464544107379485 19);
  ([Dec 15919880246186957 18; Dec 80668571635029518 17], Dec 52952437376581349 19);
  ([Dec 81984446336682115 18; Dec 80668571635029518 17], Dec 11769710740649043 18);
  ([Dec 19331428364970482 17; Dec 80668571635029518 17], Dec 16979483769905747 18);
  ([Dec 33787328829809554 17; Dec 80668571635029518 17], Dec 20350247316704120 18);
  ([Dec 50000000000000000 17; Dec 80668571635029518 17], Dec 21515977071633632 18);
  ([Dec 66212671170190451 17; Dec 80668571635029518 17], Dec 20350247316704120 18);
  ([Dec 80668571635029518 17; Dec 80668571635029518 17], Dec 16979483769905747 18);
  ([Dec 91801555366331788 17; Dec 80668571635029518 17], Dec 11769710740649043 18);
  ([Dec 98408011975381304 17; Dec 80668571635029518 17], Dec 52952437376581349 19);
  ([Dec 15919880246186957 18; Dec 91801555366331788 17], Dec 36705171922794856 19);
  ([Dec 81984446336682115 18; Dec 91801555366331788 17], Dec 81584394906087550 19);
  ([Dec 19331428364970482 17; Dec 91801555366331788 17], Dec 11769710740649043 18);
  ([Dec 33787328829809554 17; Dec 91801555366331788 17], Dec 14106231241422859 18);
  ([Dec 50000000000000000 17; Dec 91801555366331788 17], Dec 14914283017508408 18);
  ([Dec 66212671170190451 17; Dec 91801555366331788 17], Dec 14106231241422859 18);
  ([Dec 80668571635029518 17; Dec 91801555366331788 17], Dec 11769710740649043 18);
  ([Dec 91801555366331788 17; Dec 91801555366331788 17], Dec 81584394906087550 19);
  ([Dec 98408011975381304 17; Dec 91801555366331788 17], Dec 36705171922794856 19);
  ([Dec 15919880246186957 18; Dec 98408011975381304 17], Dec 16513815508870057 19);
  ([Dec 81984446336682115 18; Dec 98408011975381304 17], Dec 36705171922794856 19);
  ([Dec 19331428364970482 17; Dec 98408011975381304 17], Dec 52952437376581349 19);
  ([Dec 33787328829809554 17; Dec 98408011975381304 17], Dec 63464544107379485 19);
  ([Dec 50000000000000000 17; Dec 98408011975381304 17], Dec 67100003976620567 19);
  ([Dec 66212671170190451 17; Dec 98408011975381304 17], Dec 63464544107379485 19);
  ([Dec 80668571635029518 17; Dec 98408011975381304 17], Dec 52952437376581349 19);
  ([Dec 91801555366331788 17; Dec 98408011975381304 17], Dec 36705171922794856 19);
  ([Dec 98408011975381304 17; Dec 98408011975381304 17], Dec 16513815508870057 19)].

(** FillPointsAndWeights, order 18, 19: Quadrature_Gauss2D_Square.cpp:935-1238. *)
Definition Square_19 : rule := Rule true [
  ([Dec 13046735741414128 18; Dec 13046735741414128 18], Dec 11112670379819106 19);
  ([Dec 67468316655507732 18; Dec 13046735741414128 18], Dec 24910305891540814 19);
  ([Dec 16029521585048778 17; Dec 13046735741414128 18], Dec 36516955771602765 19);
  ([Dec 28330230293537639 17; Dec 13046735741414128 18], Dec 44880935384969131 19);
  ([Dec 42556283050918442 17; Dec 13046735741414128 18], Dec 49257493343788537 19);
  ([Dec 57443716949081558 17; Dec 13046735741414128 18], Dec 49257493343788537 19);
  ([Dec 71669769706462361 17; Dec 13046735741414128 18], Dec 44880935384969131 19);
  ([Dec 83970478414951222 17; Dec 13046735741414128 18], Dec 36516955771602765 19);
  ([Dec 93253168334449232 17; Dec 13046735741414128 18], Dec 24910305891540814 19);
  ([Dec 98695326425858587 17; Dec 13046735741414128 18], Dec 11112670379819106 19);
  ([Dec 13046735741414128 18; Dec 67468316655507732 18], Dec 24910305891540814 19);
  ([Dec 67468316655507732 18; Dec 67468316655507732 18], Dec 55839264407321863 19);
  ([Dec 16029521585048778 17; Dec 67468316655507732 18], Dec 81856881146266762 19);
  ([Dec 28330230293537639 17; Dec 67468316655507732 18], Dec 10060568620557412 18);
  ([Dec 42556283050918442 17; Dec 67468316655507732 18], Dec 11041623522574791 18);
  ([Dec 57443716949081558 17; Dec 67468316655507732 18], Dec 11041623522574791 18);
  ([Dec 71669769706462361 17; Dec 67468316655507732 18], Dec 10060568620557412 18);
  ([Dec 83970478414951222 17; Dec 67468316655507732 18], Dec 81856881146266762 19);
  ([Dec 93253168334449232 17; Dec 67468316655507732 18], Dec 55839264407321863 19);
  ([Dec 98695326425858587 17; Dec 67468316655507732 18], Dec 24910305891540814 19);
  ([Dec 13046735741414128 18; Dec 16029521585048778 17], Dec 36516955771602765 19);
  ([Dec 67468316655507732 18; Dec 16029521585048778 17], Dec 81856881146266762 19);
  ([Dec 16029521585048778 17; Dec 16029521585048778 17], Dec 11999708560121076 18);
  ([Dec 28330230293537639 17; Dec 16029521585048778 17], Dec 14748166520059761 18);
  ([Dec 42556283050918442 17; Dec 16029521585048778 17], Dec 16186331857027721 18);
  ([Dec 57443716949081558 17; Dec 16029521585048778 17], Dec 16186331857027721 18);
  ([Dec 71669769706462361 17; Dec 16029521585048778 17], Dec 14748166520059761 18);
  ([Dec 83970478414951222 17; Dec 16029521585048778 17], Dec 11999708560121076 18);
  ([Dec 93253168334449232 17; Dec 16029521585048778 17], Dec 81856881146266762 19);
  ([Dec 98695326425858587 17; Dec 16029521585048778 17], Dec 36516955771602765 19);
  ([Dec 13046735741414128 18; Dec 28330230293537639 17], Dec 44880935384969131 19);
  ([Dec 67468316655507732 18; Dec 28330230293537639 17], Dec 10060568620557412 18);
  ([Dec 16029521585048778 17; Dec 28330230293537639 17], Dec 14748166520059761 18);
  ([Dec 28330230293537639 17; Dec 28330230293537639 17], Dec 18126141531992091 18);
  ([Dec 42556283050918442 17; Dec 28330230293537639 17], Dec 19893709616392911 18);
  ([Dec 57443716949081558 17; Dec 28330230293537639 17], Dec 19893709616392911 18);
  ([Dec 71669769706462361 17; Dec 28330230293537639 17], Dec 18126141531992091 18);
  ([Dec 83970478414951222 17; Dec 28330230293537639 17], Dec 14748166520059761 18);
  ([Dec 93253168334449232 17; Dec 28330230293537639 17], Dec 10060568620557412 18);
  ([Dec 98695326425858587 17; Dec 28330230293537639 17], Dec 44880935384969131 19);
  ([Dec 13046735741414128 18; Dec 42556283050918442 17], Dec 49257493343788537 19);
  ([Dec 67468316655507732 18; Dec 42556283050918442 17], Dec 11041623522574791 18);
  ([Dec 16029521585048778 17; Dec 42556283050918442 17], Dec 16186331857027721 18);
  ([Dec 28330230293537639 17; Dec 42556283050918442 17], Dec 19893709616392911 18);
  ([Dec 42556283050918442 17; Dec 42556283050918442 17], Dec 21833641848313937 18);
  ([Dec 57443716949081558 17; Dec 42556283050918442 17], Dec 21833641848313937 18);
  ([Dec 71669769706462361 17; Dec 42556283050918442 17], Dec 19893709616392911 18);
  ([Dec 83970478414951222 17; Dec 42556283050918442 17], Dec 16186331857027721 18);
  ([Dec 93253168334449232 17; Dec 42556283050918442 17], Dec 11041623522574791 18);
  ([Dec 98695326425858587 17; Dec 42556283050918442 17], Dec 49257493343788537 19);
  ([Dec 13046735741414128 18; Dec 57443716949081558 17], Dec 49257493343788537 19);
  ([Dec 67468316655507732 18; Dec 57443716949081558 17], Dec 11041623522574791 18);
  ([Dec 16029521585048778 17; Dec 57443716949081558 17], Dec 16186331857027721 18);
  ([Dec 28330230293537639 17; Dec 57443716949081558 17], Dec 19893709616392911 18);
  ([Dec 42556283050918442 17; Dec 57443716949081558 17], Dec 21833641848313937 18);
  ([Dec 57443716949081558 17; Dec 57443716949081558 17], Dec 21833641848313937 18);
  ([Dec 71669769706462361 17; Dec 57443716949081558 17], Dec 19893709616392911 18);
  ([Dec 83970478414951222 17; Dec 57443716949081558 17], Dec 16186331857027721 18);
  ([Dec 93253168334449232 17; Dec 57443716949081558 17], Dec 11041623522574791 18);
  ([Dec 98695326425858587 17; Dec 57443716949081558 17], Dec 49257493343788537 19);
  ([Dec 13046735741414128 18; Dec 71669769706462361 17], Dec 44880935384969131 19);
  ([Dec 67468316655507732 18; Dec 71669769706462361 17], Dec 10060568620557412 18);
  ([Dec 16029521585048778 17; Dec 71669769706462361 17], Dec 14748166520059761 18);
  ([Dec 28330230293537639 17; Dec 71669769706462361 17], Dec 18126141531992091 18);
  ([Dec 42556283050918442 17; Dec 71669769706462361 17], Dec 19893709616392911 18);
  ([Dec 57443716949081558 17; Dec 71669769706462361 17], Dec 19893709616392911 18);
  ([Dec 71669769706462361 17; Dec 71669769706462361 17], Dec 18126141531992091 18);
  ([Dec 83970478414951222 17; Dec 71669769706462361 17], Dec 14748166520059761 18);
  ([Dec 93253168334449232 17; Dec 71669769706462361 17], Dec 10060568620557412 18);
  ([Dec 98695326425858587 17; Dec 71669769706462361 17], Dec 44880935384969131 19);
  ([Dec 13046735741414128 18; Dec 83970478414951222 17], Dec 36516955771602765 19);
  ([Dec 67468316655507732 18; Dec 83970478414951222 17], Dec 81856881146266762 19);
  ([Dec 16029521585048778 17; Dec 83970478414951222 17], Dec 11999708560121076 18);
  ([Dec 28330230293537639 17; Dec 83970478414951222 17], Dec 14748166520059761 18);
  ([Dec 42556283050918442 17; Dec 83970478414951222 17], Dec 16186331857027721 18);
  ([Dec 57443716949081558 17; Dec 83970478414951222 17], Dec 16186331857027721 18);
  ([Dec 71669769706462361 17; Dec 83970478414951222 17], Dec 14748166520059761 18);
  ([Dec 83970478414951222 17; Dec 83970478414951222 17], Dec 11999708560121076 18);
  ([Dec 93253168334449232 17; Dec 83970478414951222 17], Dec 81856881146266762 19);
  ([Dec 98695326425858587 17; Dec 83970478414951222 17], Dec 36516955771602765 19);
  ([Dec 13046735741414128 18; Dec 93253168334449232 17], Dec 24910305891540814 19);
  ([Dec 67468316655507732 18; Dec 93253168334449232 17], Dec 55839264407321863 19);
  ([Dec 16029521585048778 17; Dec 93253168334449232 17], Dec 81856881146266762 19);
  ([Dec 28330230293537639 17; Dec 93253168334449232 17], Dec 10060568620557412 18);
  ([Dec 42556283050918442 17; Dec 93253168334449232 17], Dec 11041623522574791 18);
  ([Dec 57443716949081558 17; Dec 93253168334449232 17], Dec 11041623522574791 18);
  ([Dec 71669769706462361 17; Dec 93253168334449232 17], Dec 10060568620557412 18);
  ([Dec 83970478414951222 17; Dec 93253168334449232 17], Dec 81856881146266762 19);
  ([Dec 93253168334449232 17; Dec 93253168334449232 17], Dec 55839264407321863 19);
  ([Dec 98695326425858587 17; Dec 93253168334449232 17], Dec 24910305891540814 19);
  ([Dec 13046735741414128 18; Dec 98695326425858587 17], Dec 11112670379819106 19);
  ([Dec 67468316655507732 18; Dec 98695326425858587 17], Dec 24910305891540814 19);
  ([Dec 16029521585048778 17; Dec 98695326425858587 17], Dec 36516955771602765 19);
  ([Dec 28330230293537639 17; Dec 98695326425858587 17], Dec 44880935384969131 19);
  ([Dec 42556283050918442 17; Dec 98695326425858587 17], Dec 49257493343788537 19);
  ([Dec 57443716949081558 17; Dec 98695326425858587 17], Dec 49257493343788537 19);
  ([Dec 71669769706462361 17; Dec 98695326425858587 17], Dec 44880935384969131 19);
  ([Dec 83970478414951222 17; Dec 98695326425858587 17], Dec 36516955771602765 19);
  ([Dec 93253168334449232 17; Dec 98695326425858587 17], Dec 24910305891540814 19);
  ([Dec 98695326425858587 17; Dec 98695326425858587 17], Dec 11112670379819106 19)].

(** FillPointsAndWeights, order 20, 21: Quadrature_Gauss2D_Square.cpp:1241-1607. *)
Definition Square_21 : rule := Rule true [
  ([Dec 10885670926971514 18; Dec 10885670926971514 18], Dec 77474734119198298 20);
  ([Dec 56468700115952342 18; Dec 10885670926971514 18], Dec 17477198065077319 19);
  ([Dec 13492399721297532 17; Dec 10885670926971514 18], Dec 25926272775291808 19);
  ([Dec 24045193539659410 17; Dec 10885670926971514 18], Dec 32453906838156060 19);
  ([Dec 36522842202382755 17; Dec 10885670926971514 18], Dec 36574881061260285 19);
  ([Dec 50000000000000000 17; Dec 10885670926971514 18], Dec 37983371277457703 19);
  ([Dec 63477157797617245 17; Dec 10885670926971514 18], Dec 36574881061260285 19);
  ([Dec 75954806460340585 17; Dec 10885670926971514 18], Dec 32453906838156060 19);
  ([Dec 86507600278702468 17; Dec 10885670926971514 18], Dec 25926272775291808 19);
  ([Dec 94353129988404771 17; Dec 10885670926971514 18], Dec 17477198065077319 19);
  ([Dec 98911432907302843 17; Dec 10885670926971514 18], Dec 77474734119198298 20);
  ([Dec 10885670926971514 18; Dec 56468700115952342 18], Dec 17477198065077319 19);
  ([Dec 56468700115952342 18; Dec 56468700115952342 18], Dec 39426072987354868 19);
  ([Dec 13492399721297532 17; Dec 56468700115952342 18], Dec 58485983789999694 19);
  ([Dec 24045193539659410 17; Dec 56468700115952342 18], Dec 73211397785935385 19);
  ([Dec 36522842202382755 17; Dec 56468700115952342 18], Dec 82507729491631855 19);
  ([Dec 50000000000000000 17; Dec 56468700115952342 18], Dec 85685083084524778 19);
  ([Dec 63477157797617245 17; Dec 56468700115952342 18], Dec 82507729491631855 19);
  ([Dec 75954806460340585 17; Dec 56468700115952342 18], Dec 73211397785935385 19);
  ([Dec 86507600278702468 17; Dec 56468700115952342 18], Dec 58485983789999694 19);
  ([Dec 94353129988404771 17; Dec 56468700115952342 18], Dec 39426072987354868 19);
  ([Dec 98911432907302843 17; Dec 56468700115952342 18], Dec 17477198065077319 19);
  ([Dec 10885670926971514 18; Dec 13492399721297532 17], Dec 25926272775291808 19);
  ([Dec 56468700115952342 18; Dec 13492399721297532 17], Dec 58485983789999694 19);
  ([Dec 13492399721297532 17; Dec 13492399721297532 17], Dec 86760106718749303 19);
  ([Dec 24045193539659410 17; Dec 13492399721297532 17], Dec 10860428898218579 18);
  ([Dec 36522842202382755 17; Dec 13492399721297532 17], Dec 12239478507395244 18);
  ([Dec 50000000000000000 17; Dec 13492399721297532 17], Dec 12710817995831321 18);
  ([Dec 63477157797617245 17; Dec 13492399721297532 17], Dec 12239478507395244 18);
  ([Dec 75954806460340585 17; Dec 13492399721297532 17], Dec 10860428898218579 18);
  ([Dec 86507600278702468 17; Dec 13492399721297532 17], Dec 86760106718749303 19);
  ([Dec 94353129988404771 17; Dec 13492399721297532 17], Dec 58485983789999694 19);
  ([Dec 98911432907302843 17; Dec 13492399721297532 17], Dec 25926272775291808 19);
  ([Dec 10885670926971514 18; Dec 24045193539659410 17], Dec 32453906838156060 19);
  ([Dec 56468700115952342 18; Dec 24045193539659410 17], Dec 73211397785935385 19);
  ([Dec 13492399721297532 17; Dec 24045193539659410 17], Dec 10860428898218579 18);
  ([Dec 24045193539659410 17; Dec 24045193539659410 17], Dec 13594832961146169 18);
  ([Dec 36522842202382755 17; Dec 24045193539659410 17], Dec 15321095271556935 18);
  ([Dec 50000000000000000 17; Dec 24045193539659410 17], Dec 15911107109333581 18);
  ([Dec 63477157797617245 17; Dec 24045193539659410 17], Dec 15321095271556935 18);
  ([Dec 75954806460340585 17; Dec 24045193539659410 17], Dec 13594832961146169 18);
  ([Dec 86507600278702468 17; Dec 24045193539659410 17], Dec 10860428898218579 18);
  ([Dec 94353129988404771 17; Dec 24045193539659410 17], Dec 73211397785935385 19);
  ([Dec 98911432907302843 17; Dec 24045193539659410 17], Dec 32453906838156060 19);
  ([Dec 10885670926971514 18; Dec 36522842202382755 17], Dec 36574881061260285 19);
  ([Dec 56468700115952342 18; Dec 36522842202382755 17], Dec 82507729491631855 19);
  ([Dec 13492399721297532 17; Dec 36522842202382755 17], Dec 12239478507395244 18);
  ([Dec 24045193539659410 17; Dec 36522842202382755 17], Dec 15321095271556935 18);
  ([Dec 36522842202382755 17; Dec 36522842202382755 17], Dec 17266557153809554 18);
  ([Dec 50000000000000000 17; Dec 36522842202382755 17], Dec 17931488279021426 18);
  ([Dec 63477157797617245 17; Dec 36522842202382755 17], Dec 17266557153809554 18);
  ([Dec 75954806460340585 17; Dec 36522842202382755 17], Dec 15321095271556935 18);
  ([Dec 86507600278702468 17; Dec 36522842202382755 17], Dec 12239478507395244 18);
  ([Dec 94353129988404771 17; Dec 36522842202382755 17], Dec 82507729491631855 19);
  ([Dec 98911432907302843 17; Dec 36522842202382755 17], Dec 36574881061260285 19);
  ([Dec 10885670926971514 18; Dec 50000000000000000 17], Dec 37983371277457703 19);
  ([Dec 56468700115952342 18; Dec 50000000000000000 17], Dec 85685083084524778 19);
  ([Dec 13492399721297532 17; Dec 50000000000000000 17], Dec 12710817995831321 18);
  ([Dec 24045193539659410 17; Dec 50000000000000000 17], Dec 15911107109333581 18);
  ([Dec 36522842202382755 17; Dec 50000000000000000 17], Dec 17931488279021426 18);
  ([Dec 50000000000000000 17; Dec 50000000000000000 17], Dec 18622025748181146 18);
  ([Dec 63477157797617245 17; Dec 50000000000000000 17], Dec 17931488279021426 18);
  ([Dec 75954806460340585 17; Dec 50000000000000000 17], Dec 15911107109333581 18);
  ([Dec 86507600278702468 17; Dec 50000000000000000 17], Dec 12710817995831321 18);
  ([Dec 94353129988404771 17; Dec 50000000000000000 17], Dec 85685083084524778 19);
  ([Dec 98911432907302843 17; Dec 50000000000000000 17], Dec 37983371277457703 19);
  ([Dec 10885670926971514 18; Dec 63477157797617245 17], Dec 36574881061260285 19);
  ([Dec 56468700115952342 18; Dec 63477157797617245 17], Dec 82507729491631855 19);
  ([Dec 13492399721297532 17; Dec 63477157797617245 17], Dec 12239478507395244 18);
  ([Dec 24045193539659410 17; Dec 63477157797617245 17], Dec 15321095271556935 18);
  ([Dec 36522842202382755 17; Dec 63477157797617245 17], Dec 17266557153809554 18);
  ([Dec 50000000000000000 17; Dec 63477157797617245 17], Dec 17931488279021426 18);
  ([Dec 63477157797617245 17; Dec 63477157797617245 17], Dec 17266557153809554 18);
  ([Dec 75954806460340585 17; Dec 63477157797617245 17], Dec 15321095271556935 18);
  ([Dec 86507600278702468 17; Dec 63477157797617245 17], Dec 12239478507395244 18);
  ([Dec 94353129988404771 17; Dec 63477157797617245 17], Dec 82507729491631855 19);
  ([Dec 98911432907302843 17; Dec 63477157797617245 17], Dec 36574881061260285 19);
  ([Dec 10885670926971514 18; Dec 75954806460340585 17], Dec 32453906838156060 19);
  ([Dec 56468700115952342 18; Dec 75954806460340585 17], Dec 73211397785935385 19);
  ([Dec 13492399721297532 17; Dec 75954806460340585 17], Dec 10860428898218579 18);
  ([Dec 24045193539659410 17; Dec 75954806460340585 17], Dec 13594832961146169 18);
  ([Dec 36522842202382755 17; Dec 75954806460340585 17], Dec 15321095271556935 18);
  ([Dec 50000000000000000 17; Dec 75954806460340585 17], Dec 15911107109333581 18);
  ([Dec 63477157797617245 17; Dec 75954806460340585 17], Dec 15321095271556935 18);
  ([Dec 75954806460340585 17; Dec 75954806460340585 17], Dec 13594832961146169 18);
  ([Dec 86507600278702468 17; Dec 75954806460340585 17], Dec 10860428898218579 18);
  ([Dec 94353129988404771 17; Dec 75954806460340585 17], Dec 73211397785935385 19);
  ([Dec 98911432907302843 17; Dec 75954806460340585 17], Dec 32453906838156060 19);
  ([Dec 10885670926971514 18; Dec 86507600278702468 17], Dec 25926272775291808 19);
  ([Dec 56468700115952342 18; Dec 86507600278702468 17], Dec 58485983789999694 19);
  ([Dec 13492399721297532 17; Dec 86507600278702468 17], Dec 86760106718749303 19);
  ([Dec 24045193539659410 17; Dec 86507600278702468 17], Dec 10860428898218579 18);
  ([Dec 36522842202382755 17; Dec 86507600278702468 17], Dec 12239478507395244 18);
  ([Dec 50000000000000000 17; Dec 86507600278702468 17], Dec 12710817995831321 18);
  ([Dec 63477157797617245 17; Dec 86507600278702468 17], Dec 12239478507395244 18);
  ([Dec 75954806460340585 17; Dec 86507600278702468 17], Dec 10860428898218579 18);
  ([Dec 86507600278702468 17; Dec 86507600278702468 17], Dec 86760106718749303 19);
  ([Dec 94353129988404771 17; Dec 86507600278702468 17], Dec 58485983789999694 19);
  ([Dec 98911432907302843 17; Dec 86507600278702468 17], Dec 25926272775291808 19);
  ([Dec 10885670926971514 18; Dec 94353129988404771 17], Dec 17477198065077319 19);
  ([Dec 56468700115952342 18; Dec 94353129988404771 17], Dec 39426072987354868 19);
  ([Dec 13492399721297532 17; Dec 94353129988404771 17], Dec 58485983789999694 19);
  ([Dec 24045193539659410 17; Dec 94353129988404771 17], Dec 73211397785935385 19);
  ([Dec 36522842202382755 17; Dec 94353129988404771 17], Dec 82507729491631855 19);
  ([Dec 50000000000000000 17; Dec 94353129988404771 17], Dec 85685083084524778 19);
  ([Dec 63477157797617245 17; Dec 94353129988404771 17], Dec 82507729491631855 19);
  ([Dec 75954806460340585 17; Dec 94353129988404771 17], Dec 73211397785935385 19);
  ([Dec 86507600278702468 17; Dec 94353129988404771 17], Dec 58485983789999694 19);
  ([Dec 94353129988404771 17; Dec 94353129988404771 17], Dec 39426072987354868 19);
  ([Dec 98911432907302843 17; Dec 94353129988404771 17], Dec 17477198065077319 19);
  ([Dec 10885670926971514 18; Dec 98911432907302843 17], Dec 77474734119198298 20);
  ([Dec 56468700115952342 18; Dec 98911432907302843 17], Dec 17477198065077319 19);
  ([Dec 13492399721297532 17; Dec 98911432907302843 17], Dec 25926272775291808 19);
  ([Dec 24045193539659410 17; Dec 98911432907302843 17], Dec 32453906838156060 19);
  ([Dec 36522842202382755 17; Dec 98911432907302843 17], Dec 36574881061260285 19);
  ([Dec 50000000000000000 17; Dec 98911432907302843 17], Dec 37983371277457703 19);
  ([Dec 63477157797617245 17; Dec 98911432907302843 17], Dec 36574881061260285 19);
  ([Dec 75954806460340585 17; Dec 98911432907302843 17], Dec 32453906838156060 19);
  ([Dec 86507600278702468 17; Dec 98911432907302843 17], Dec 25926272775291808 19);
  ([Dec 94353129988404771 17; Dec 98911432907302843 17], Dec 17477198065077319 19);
  ([Dec 98911432907302843 17; Dec 98911432907302843 17], Dec 77474734119198298 20)].

(** FillPointsAndWeights, order 22, 23: Quadrature_Gauss2D_Square.cpp:1610-2045. *)
Definition Square_23 : rule := Rule true [
  ([Dec 92196828766403782 19; Dec 92196828766403782 19], Dec 55637809079513666 20);
  ([Dec 47941371814762546 18; Dec 92196828766403782 19], Dec 12612246691939989 19);
  ([Dec 11504866290284765 17; Dec 92196828766403782 19], Dec 18879372493057290 19);
  ([Dec 20634102285669126 17; Dec 92196828766403782 19], Dec 23961229246106568 19);
  ([Dec 31608425050090994 17; Dec 92196828766403782 19], Dec 27537722387341980 19);
  ([Dec 43738329574426554 17; Dec 92196828766403782 19], Dec 29383989239882371 19);
  ([Dec 56261670425573440 17; Dec 92196828766403782 19], Dec 29383989239882371 19);
  ([Dec 68391574949909006 17; Dec 92196828766403782 19], Dec 27537722387341980 19);
  ([Dec 79365897714330869 17; Dec 92196828766403782 19], Dec 23961229246106568 19);
  ([Dec 88495133709715235 17; Dec 92196828766403782 19], Dec 18879372493057290 19);
  ([Dec 95205862818523745 17; Dec 92196828766403782 19], Dec 12612246691939989 19);
  ([Dec 99078031712335957 17; Dec 92196828766403782 19], Dec 55637809079513666 20);
  ([Dec 92196828766403782 19; Dec 47941371814762546 18], Dec 12612246691939989 19);
  ([Dec 47941371814762546 18; Dec 47941371814762546 18], Dec 28590048610832469 19);
  ([Dec 11504866290284765 17; Dec 47941371814762546 18], Dec 42796671402206467 19);
  ([Dec 20634102285669126 17; Dec 47941371814762546 18], Dec 54316469194919791 19);
  ([Dec 31608425050090994 17; Dec 47941371814762546 18], Dec 62423836205872307 19);
  ([Dec 43738329574426554 17; Dec 47941371814762546 18], Dec 66609042882525039 19);
  ([Dec 56261670425573440 17; Dec 47941371814762546 18], Dec 66609042882525039 19);
  ([Dec 68391574949909006 17; Dec 47941371814762546 18], Dec 62423836205872307 19);
  ([Dec 79365897714330869 17; Dec 47941371814762546 18], Dec 54316469194919791 19);
  ([Dec 88495133709715235 17; Dec 47941371814762546 18], Dec 42796671402206467 19);
  ([Dec 95205862818523745 17; Dec 47941371814762546 18], Dec 28590048610832469 19);
  ([Dec 99078031712335957 17; Dec 47941371814762546 18], Dec 12612246691939989 19);
  ([Dec 92196828766403782 19; Dec 11504866290284765 17], Dec 18879372493057290 19);
  ([Dec 47941371814762546 18; Dec 11504866290284765 17], Dec 42796671402206467 19);
  ([Dec 11504866290284765 17; Dec 11504866290284765 17], Dec 64062678173078735 19);
  ([Dec 20634102285669126 17; Dec 11504866290284765 17], Dec 81306755210702915 19);
  ([Dec 31608425050090994 17; Dec 11504866290284765 17], Dec 93442737441015080 19);
  ([Dec 43738329574426554 17; Dec 11504866290284765 17], Dec 99707606638305048 19);
  ([Dec 56261670425573440 17; Dec 11504866290284765 17], Dec 99707606638305048 19);
  ([Dec 68391574949909006 17; Dec 11504866290284765 17], Dec 93442737441015080 19);
  ([Dec 79365897714330869 17; Dec 11504866290284765 17], Dec 81306755210702915 19);
  ([Dec 88495133709715235 17; Dec 11504866290284765 17], Dec 64062678173078735 19);
  ([Dec 95205862818523745 17; Dec 11504866290284765 17], Dec 42796671402206467 19);
  ([Dec 99078031712335957 17; Dec 11504866290284765 17], Dec 18879372493057290 19);
  ([Dec 92196828766403782 19; Dec 20634102285669126 17], Dec 23961229246106568 19);
  ([Dec 47941371814762546 18; Dec 20634102285669126 17], Dec 54316469194919791 19);
  ([Dec 11504866290284765 17; Dec 20634102285669126 17], Dec 81306755210702915 19);
  ([Dec 20634102285669126 17; Dec 20634102285669126 17], Dec 10319250820318090 18);
  ([Dec 31608425050090994 17; Dec 20634102285669126 17], Dec 11859519451884749 18);
  ([Dec 43738329574426554 17; Dec 20634102285669126 17], Dec 12654641043390714 18);
  ([Dec 56261670425573440 17; Dec 20634102285669126 17], Dec 12654641043390714 18);
  ([Dec 68391574949909006 17; Dec 20634102285669126 17], Dec 11859519451884749 18);
  ([Dec 79365897714330869 17; Dec 20634102285669126 17], Dec 10319250820318090 18);
  ([Dec 88495133709715235 17; Dec 20634102285669126 17], Dec 81306755210702915 19);
  ([Dec 95205862818523745 17; Dec 20634102285669126 17], Dec 54316469194919791 19);
  ([Dec 99078031712335957 17; Dec 20634102285669126 17], Dec 23961229246106568 19);
  ([Dec 92196828766403782 19; Dec 31608425050090994 17], Dec 27537722387341980 19);
  ([Dec 47941371814762546 18; Dec 31608425050090994 17], Dec 62423836205872307 19);
  ([Dec 11504866290284765 17; Dec 31608425050090994 17], Dec 93442737441015080 19);
  ([Dec 20634102285669126 17; Dec 31608425050090994 17], Dec 11859519451884749 18);
  ([Dec 31608425050090994 17; Dec 31608425050090994 17], Dec 13629691154778738 18);
  ([Dec 43738329574426554 17; Dec 31608425050090994 17], Dec 14543493924502276 18);
  ([Dec 56261670425573440 17; Dec 31608425050090994 17], Dec 14543493924502276 18);
  ([Dec 68391574949909006 17; Dec 31608425050090994 17], Dec 13629691154778738 18);
  ([Dec 79365897714330869 17; Dec 31608425050090994 17], Dec 11859519451884749 18);
  ([Dec 88495133709715235 17; Dec 31608425050090994 17], Dec 93442737441015080 19);
  ([Dec 95205862818523745 17; Dec 31608425050090994 17], Dec 62423836205872307 19);
  ([Dec 99078031712335957 17; Dec 31608425050090994 17], Dec 27537722387341980 19);
  ([Dec 92196828766403782 19; Dec 43738329574426554 17], Dec 29383989239882371 19);
  ([Dec 47941371814762546 18; Dec 43738329574426554 17], Dec 66609042882525039 19);
  ([Dec 11504866290284765 17; Dec 43738329574426554 17], Dec 99707606638305048 19);
  ([Dec 20634102285669126 17; Dec 43738329574426554 17], Dec 12654641043390714 18);
  ([Dec 31608425050090994 17; Dec 43738329574426554 17], Dec 14543493924502276 18);
  ([Dec 43738329574426554 17; Dec 43738329574426554 17], Dec 15518562609386456 18);
  ([Dec 56261670425573440 17; Dec 43738329574426554 17], Dec 15518562609386456 18);
  ([Dec 68391574949909006 17; Dec 43738329574426554 17], Dec 14543493924502276 18);
  ([Dec 79365897714330869 17; Dec 43738329574426554 17], Dec 12654641043390714 18);
  ([Dec 88495133709715235 17; Dec 43738329574426554 17], Dec 99707606638305048 19);
  ([Dec 95205862818523745 17; Dec 43738329574426554 17], Dec 66609042882525039 19);
  ([Dec 99078031712335957 17; Dec 43738329574426554 17], Dec 29383989239882371 19);
  ([Dec 92196828766403782 19; Dec 56261670425573440 17], Dec 29383989239882371 19);
  ([Dec 47941371814762546 18; Dec 56261670425573440 17], Dec 66609042882525039 19);
  ([Dec 11504866290284765 17; Dec 56261670425573440 17], Dec 99707606638305048 19);
  ([Dec 20634102285669126 17; Dec 56261670425573440 17], Dec 12654641043390714 18);
  ([Dec 31608425050090994 17; Dec 56261670425573440 17], Dec 14543493924502276 18);
  ([Dec 43738329574426554 17; Dec 56261670425573440 17], Dec 15518562609386456 18);
  ([Dec 56261670425573440 17; Dec 56261670425573440 17], Dec 15518562609386456 18);
  ([Dec 68391574949909006 17; Dec 56261670425573440 17], Dec 14543493924502276 18);
  ([Dec 79365897714330869 17; Dec 56261670425573440 17], Dec 12654641043390714 18);
  ([Dec 88495133709715235 17; Dec 56261670425573440 17], Dec 99707606638305048 19);
  ([Dec 95205862818523745 17; Dec 56261670425573440 17], Dec 66609042882525039 19);
  ([Dec 99078031712335957 17; Dec 56261670425573440 17], Dec 29383989239882371 19);
  ([Dec 92196828766403782 19; Dec 68391574949909006 17], Dec 27537722387341980 19);
  ([Dec 47941371814762546 18; Dec 68391574949909006 17], Dec 62423836205872307 19);
  ([Dec 11504866290284765 17; Dec 68391574949909006 17], Dec 93442737441015080 19);
  ([Dec 20634102285669126 17; Dec 68391574949909006 17], Dec 11859519451884749 18);
  ([Dec 31608425050090994 17; Dec 68391574949909006 17], Dec 13629691154778738 18);
  ([Dec 43738329574426554 17; Dec 68391574949909006 17], Dec 14543493924502276 18);
  ([Dec 56261670425573440 17; Dec 68391574949909006 17], Dec 14543493924502276 18);
  ([Dec 68391574949909006 17; Dec 68391574949909006 17], Dec 13629691154778738 18);
  ([Dec 79365897714330869 17; Dec 68391574949909006 17], Dec 11859519451884749 18);
  ([Dec 88495133709715235 17; Dec 68391574949909006 17], Dec 93442737441015080 19);
  ([Dec 95205862818523745 17; Dec 68391574949909006 17], Dec 62423836205872307 19);
  ([Dec 99078031712335957 17; Dec 68391574949909006 17], Dec 27537722387341980 19);
  ([Dec 92196828766403782 19; Dec 79365897714330869 17], Dec 23961229246106568 19);
  ([Dec 47941371814762546 18; Dec 79365897714330869 17], Dec 54316469194919791 19);
  ([Dec 11504866290284765 17; Dec 79365897714330869 17], Dec 81306755210702915 19);
  ([Dec 20634102285669126 17; Dec 79365897714330869 17], Dec 10319250820318090 18);
  ([Dec 31608425050090994 17; Dec 79365897714330869 17], Dec 11859519451884749 18);
  ([Dec 43738329574426554 17; Dec 79365897714330869 17], Dec 12654641043390714 18);
  ([Dec 56261670425573440 17; Dec 79365897714330869 17], Dec 12654641043390714 18);
  ([Dec 68391574949909006 17; Dec 79365897714330869 17], Dec 11859519451884749 18);
  ([Dec 79365897714330869 17; Dec 79365897714330869 17], Dec 10319250820318090 18);
  ([Dec 88495133709715235 17; Dec 79365897714330869 17], Dec 81306755210702915 19);
  ([Dec 95205862818523745 17; Dec 79365897714330869 17], Dec 54316469194919791 19);
  ([Dec 99078031712335957 17; Dec 79365897714330869 17], Dec 23961229246106568 19);
  ([Dec 92196828766403782 19; Dec 88495133709715235 17], Dec 18879372493057290 19);
  ([Dec 47941371814762546 18; Dec 88495133709715235 17], Dec 42796671402206467 19);
  ([Dec 11504866290284765 17; Dec 88495133709715235 17], Dec 64062678173078735 19);
  ([Dec 20634102285669126 17; Dec 88495133709715235 17], Dec 81306755210702915 19);
  ([Dec 31608425050090994 17; Dec 88495133709715235 17], Dec 93442737441015080 19);
  ([Dec 43738329574426554 17; Dec 88495133709715235 17], Dec 99707606638305048 19);
  ([Dec 56261670425573440 17; Dec 88495133709715235 17], Dec 99707606638305048 19);
  ([Dec 68391574949909006 17; Dec 88495133709715235 17], Dec 93442737441015080 19);
  ([Dec 79365897714330869 17; Dec 88495133709715235 17], Dec 81306755210702915 19);
  ([Dec 88495133709715235 17; Dec 88495133709715235 17], Dec 64062678173078735 19);
  ([Dec 95205862818523745 17; Dec 88495133709715235 17], Dec 42796671402206467 19);
  ([Dec 99078031712335957 17; Dec 88495133709715235 17], Dec 18879372493057290 19);
  ([Dec 92196828766403782 19; Dec 95205862818523745 17], Dec 12612246691939989 19);
  ([Dec 47941371814762546 18; Dec 95205862818523745 17], Dec 28590048610832469 19);
  ([Dec 11504866290284765 17; Dec 95205862818523745 17], Dec 42796671402206467 19);
  ([Dec 20634102285669126 17; Dec 95205862818523745 17], Dec 54316469194919791 19);
  ([Dec 31608425050090994 17; Dec 95205862818523745 17], Dec 62423836205872307 19);
  ([Dec 43738329574426554 17; Dec 95205862818523745 17], Dec 66609042882525039 19);
  ([Dec 56261670425573440 17; Dec 95205862818523745 17], Dec 66609042882525039 19);
  ([Dec 68391574949909006 17; Dec 95205862818523745 17], Dec 62423836205872307 19);
  ([Dec 79365897714330869 17; Dec 95205862818523745 17], Dec 54316469194919791 19);
  ([Dec 88495133709715235 17; Dec 95205862818523745 17], Dec 42796671402206467 19);
  ([Dec 95205862818523745 17; Dec 95205862818523745 17], Dec 28590048610832469 19);
  ([Dec 99078031712335957 17; Dec 95205862818523745 17], Dec 12612246691939989 19);
  ([Dec 92196828766403782 19; Dec 99078031712335957 17], Dec 55637809079513666 20);
  ([Dec 47941371814762546 18; Dec 99078031712335957 17], Dec 12612246691939989 19);
  ([Dec 11504866290284765 17; Dec 99078031712335957 17], Dec 18879372493057290 19);
  ([Dec 20634102285669126 17; Dec 99078031712335957 17], Dec 23961229246106568 19);
  ([Dec 31608425050090994 17; Dec 99078031712335957 17], Dec 27537722387341980 19);
  ([Dec 43738329574426554 17; Dec 99078031712335957 17], Dec 29383989239882371 19);
  ([Dec 56261670425573440 17; Dec 99078031712335957 17], Dec 29383989239882371 19);
  ([Dec 68391574949909006 17; Dec 99078031712335957 17], Dec 27537722387341980 19);
  ([Dec 79365897714330869 17; Dec 99078031712335957 17], Dec 23961229246106568 19);
  ([Dec 88495133709715235 17; Dec 99078031712335957 17], Dec 18879372493057290 19);
  ([Dec 95205862818523745 17; Dec 99078031712335957 17], Dec 12612246691939989 19);
  ([Dec 99078031712335957 17; Dec 99078031712335957 17], Dec 55637809079513666 20)].

(** FillPointsAndWeights, order 24, 25: Quadrature_Gauss2D_Square.cpp:2048-2558. *)
Definition Square_25 : rule := Rule true [
  ([Dec 79084726407059325 19; Dec 79084726407059325 19], Dec 40973866045952966 20);
  ([Dec 41200800388511039 18; Dec 79084726407059325 19], Dec 93236180960466113 20);
  ([Dec 99210954633345061 18; Dec 79084726407059325 19], Dec 14055389623785026 19);
  ([Dec 17882533027982989 17; Dec 79084726407059325 19], Dec 18030156835221205 19);
  ([Dec 27575362448177654 17; Dec 79084726407059325 19], Dec 21033064646981264 19);
  ([Dec 38477084202243261 17; Dec 79084726407059325 19], Dec 22902123370184906 19);
  ([Dec 50000000000000000 17; Dec 79084726407059325 19], Dec 23536545472950770 19);
  ([Dec 61522915797756739 17; Dec 79084726407059325 19], Dec 22902123370184906 19);
  ([Dec 72424637551822346 17; Dec 79084726407059325 19], Dec 21033064646981264 19);
  ([Dec 82117466972017006 17; Dec 79084726407059325 19], Dec 18030156835221205 19);
  ([Dec 90078904536665494 17; Dec 79084726407059325 19], Dec 14055389623785026 19);
  ([Dec 95879919961148896 17; Dec 79084726407059325 19], Dec 93236180960466113 20);
  ([Dec 99209152735929407 17; Dec 79084726407059325 19], Dec 40973866045952966 20);
  ([Dec 79084726407059325 19; Dec 41200800388511039 18], Dec 93236180960466113 20);
  ([Dec 41200800388511039 18; Dec 41200800388511039 18], Dec 21215926830881510 19);
  ([Dec 99210954633345061 18; Dec 41200800388511039 18], Dec 31983090122942280 19);
  ([Dec 17882533027982989 17; Dec 41200800388511039 18], Dec 41027687344633900 19);
  ([Dec 27575362448177654 17; Dec 41200800388511039 18], Dec 47860814973617110 19);
  ([Dec 38477084202243261 17; Dec 41200800388511039 18], Dec 52113864884672911 19);
  ([Dec 50000000000000000 17; Dec 41200800388511039 18], Dec 53557494683053623 19);
  ([Dec 61522915797756739 17; Dec 41200800388511039 18], Dec 52113864884672911 19);
  ([Dec 72424637551822346 17; Dec 41200800388511039 18], Dec 47860814973617110 19);
  ([Dec 82117466972017006 17; Dec 41200800388511039 18], Dec 41027687344633900 19);
  ([Dec 90078904536665494 17; Dec 41200800388511039 18], Dec 31983090122942280 19);
  ([Dec 95879919961148896 17; Dec 41200800388511039 18], Dec 21215926830881510 19);
  ([Dec 99209152735929407 17; Dec 41200800388511039 18], Dec 93236180960466113 20);
  ([Dec 79084726407059325 19; Dec 99210954633345061 18], Dec 14055389623785026 19);
  ([Dec 41200800388511039 18; Dec 99210954633345061 18], Dec 31983090122942280 19);
  ([Dec 99210954633345061 18; Dec 99210954633345061 18], Dec 48214629601913382 19);
  ([Dec 17882533027982989 17; Dec 99210954633345061 18], Dec 61849394199895236 19);
  ([Dec 27575362448177654 17; Dec 99210954633345061 18], Dec 72150360003624698 19);
  ([Dec 38477084202243261 17; Dec 99210954633345061 18], Dec 78561848867013551 19);
  ([Dec 50000000000000000 17; Dec 99210954633345061 18], Dec 80738126260587913 19);
  ([Dec 61522915797756739 17; Dec 99210954633345061 18], Dec 78561848867013551 19);
  ([Dec 72424637551822346 17; Dec 99210954633345061 18], Dec 72150360003624698 19);
  ([Dec 82117466972017006 17; Dec 99210954633345061 18], Dec 61849394199895236 19);
  ([Dec 90078904536665494 17; Dec 99210954633345061 18], Dec 48214629601913382 19);
  ([Dec 95879919961148896 17; Dec 99210954633345061 18], Dec 31983090122942280 19);
  ([Dec 99209152735929407 17; Dec 99210954633345061 18], Dec 14055389623785026 19);
  ([Dec 79084726407059325 19; Dec 17882533027982989 17], Dec 18030156835221205 19);
  ([Dec 41200800388511039 18; Dec 17882533027982989 17], Dec 41027687344633900 19);
  ([Dec 99210954633345061 18; Dec 17882533027982989 17], Dec 61849394199895236 19);
  ([Dec 17882533027982989 17; Dec 17882533027982989 17], Dec 79339976154088852 19);
  ([Dec 27575362448177654 17; Dec 17882533027982989 17], Dec 92553984016325360 19);
  ([Dec 38477084202243261 17; Dec 17882533027982989 17], Dec 10077859769466497 18);
  ([Dec 50000000000000000 17; Dec 17882533027982989 17], Dec 10357031132006965 18);
  ([Dec 61522915797756739 17; Dec 17882533027982989 17], Dec 10077859769466497 18);
  ([Dec 72424637551822346 17; Dec 17882533027982989 17], Dec 92553984016325360 19);
  ([Dec 82117466972017006 17; Dec 17882533027982989 17], Dec 79339976154088852 19);
  ([Dec 90078904536665494 17; Dec 17882533027982989 17], Dec 61849394199895236 19);
  ([Dec 95879919961148896 17; Dec 17882533027982989 17], Dec 41027687344633900 19);
  ([Dec 99209152735929407 17; Dec 17882533027982989 17], Dec 18030156835221205 19);
  ([Dec 79084726407059325 19; Dec 27575362448177654 17], Dec 21033064646981264 19);
  ([Dec 41200800388511039 18; Dec 27575362448177654 17], Dec 47860814973617110 19);
  ([Dec 99210954633345061 18; Dec 27575362448177654 17], Dec 72150360003624698 19);
  ([Dec 17882533027982989 17; Dec 27575362448177654 17], Dec 92553984016325360 19);
  ([Dec 27575362448177654 17; Dec 27575362448177654 17], Dec 10796877403463577 18);
  ([Dec 38477084202243261 17; Dec 27575362448177654 17], Dec 11756319036578141 18);
  ([Dec 50000000000000000 17; Dec 27575362448177654 17], Dec 12081986160251136 18);
  ([Dec 61522915797756739 17; Dec 27575362448177654 17], Dec 11756319036578141 18);
  ([Dec 72424637551822346 17; Dec 27575362448177654 17], Dec 10796877403463577 18);
  ([Dec 82117466972017006 17; Dec 27575362448177654 17], Dec 92553984016325360 19);
  ([Dec 90078904536665494 17; Dec 27575362448177654 17], Dec 72150360003624698 19);
  ([Dec 95879919961148896 17; Dec 27575362448177654 17], Dec 47860814973617110 19);
  ([Dec 99209152735929407 17; Dec 27575362448177654 17], Dec 21033064646981264 19);
  ([Dec 79084726407059325 19; Dec 38477084202243261 17], Dec 22902123370184906 19);
  ([Dec 41200800388511039 18; Dec 38477084202243261 17], Dec 52113864884672911 19);
  ([Dec 99210954633345061 18; Dec 38477084202243261 17], Dec 78561848867013551 19);
  ([Dec 17882533027982989 17; Dec 38477084202243261 17], Dec 10077859769466497 18);
  ([Dec 27575362448177654 17; Dec 38477084202243261 17], Dec 11756319036578141 18);
  ([Dec 38477084202243261 17; Dec 38477084202243261 17], Dec 12801019417472711 18);
  ([Dec 50000000000000000 17; Dec 38477084202243261 17], Dec 13155626260039644 18);
  ([Dec 61522915797756739 17; Dec 38477084202243261 17], Dec 12801019417472711 18);
  ([Dec 72424637551822346 17; Dec 38477084202243261 17], Dec 11756319036578141 18);
  ([Dec 82117466972017006 17; Dec 38477084202243261 17], Dec 10077859769466497 18);
  ([Dec 90078904536665494 17; Dec 38477084202243261 17], Dec 78561848867013551 19);
  ([Dec 95879919961148896 17; Dec 38477084202243261 17], Dec 52113864884672911 19);
  ([Dec 99209152735929407 17; Dec 38477084202243261 17], Dec 22902123370184906 19);
  ([Dec 79084726407059325 19; Dec 50000000000000000 17], Dec 23536545472950770 19);
  ([Dec 41200800388511039 18; Dec 50000000000000000 17], Dec 53557494683053623 19);
  ([Dec 99210954633345061 18; Dec 50000000000000000 17], Dec 80738126260587913 19);
  ([Dec 17882533027982989 17; Dec 50000000000000000 17], Dec 10357031132006965 18);
  ([Dec 27575362448177654 17; Dec 50000000000000000 17], Dec 12081986160251136 18);
  ([Dec 38477084202243261 17; Dec 50000000000000000 17], Dec 13155626260039644 18);
  ([Dec 50000000000000000 17; Dec 50000000000000000 17], Dec 13520056227522994 18);
  ([Dec 61522915797756739 17; Dec 50000000000000000 17], Dec 13155626260039644 18);
  ([Dec 72424637551822346 17; Dec 50000000000000000 17], Dec 12081986160251136 18);
  ([Dec 82117466972017006 17; Dec 50000000000000000 17], Dec 10357031132006965 18);
  ([Dec 90078904536665494 17; Dec 50000000000000000 17], Dec 80738126260587913 19);
  ([Dec 95879919961148896 17; Dec 50000000000000000 17], Dec 53557494683053623 19);
  ([Dec 99209152735929407 17; Dec 50000000000000000 17], Dec 23536545472950770 19);
  ([Dec 79084726407059325 19; Dec 61522915797756739 17], Dec 22902123370184906 19);
  ([Dec 41200800388511039 18; Dec 61522915797756739 17], Dec 52113864884672911 19);
  ([Dec 99210954633345061 18; Dec 61522915797756739 17], Dec 78561848867013551 19);
  ([Dec 17882533027982989 17; Dec 61522915797756739 17], Dec 10077859769466497 18);
  ([Dec 27575362448177654 17; Dec 61522915797756739 17], Dec 11756319036578141 18);
  ([Dec 38477084202243261 17; Dec 61522915797756739 17], Dec 12801019417472711 18);
  ([Dec 50000000000000000 17; Dec 61522915797756739 17], Dec 13155626260039644 18);
  ([Dec 61522915797756739 17; Dec 61522915797756739 17], Dec 12801019417472711 18);
  ([Dec 72424637551822346 17; Dec 61522915797756739 17], Dec 11756319036578141 18);
  ([Dec 82117466972017006 17; Dec 61522915797756739 17], Dec 10077859769466497 18);
  ([Dec 90078904536665494 17; Dec 61522915797756739 17], Dec 78561848867013551 19);
  ([Dec 95879919961148896 17; Dec 61522915797756739 17], Dec 52113864884672911 19);
  ([Dec 99209152735929407 17; Dec 61522915797756739 17], Dec 22902123370184906 19);
  ([Dec 79084726407059325 19; Dec 72424637551822346 17], Dec 21033064646981264 19);
  ([Dec 41200800388511039 18; Dec 72424637551822346 17], Dec 47860814973617110 19);
  ([Dec 99210954633345061 18; Dec 72424637551822346 17], Dec 72150360003624698 19);
  ([Dec 17882533027982989 17; Dec 72424637551822346 17], Dec 92553984016325360 19);
  ([Dec 27575362448177654 17; Dec 72424637551822346 17], Dec 10796877403463577 18);
  ([Dec 38477084202243261 17; Dec 72424637551822346 17], Dec 11756319036578141 18);
  ([Dec 50000000000000000 17; Dec 72424637551822346 17], Dec 12081986160251136 18);
  ([Dec 61522915797756739 17; Dec 72424637551822346 17], Dec 11756319036578141 18);
  ([Dec 72424637551822346 17; Dec 72424637551822346 17], Dec 10796877403463577 18);
  ([Dec 82117466972017006 17; Dec 72424637551822346 17], Dec 92553984016325360 19);
  ([Dec 90078904536665494 17; Dec 72424637551822346 17], Dec 72150360003624698 19);
  ([Dec 95879919961148896 17; Dec 72424637551822346 17], Dec 47860814973617110 19);
  ([Dec 99209152735929407 17; Dec 72424637551822346 17], Dec 21033064646981264 19);
  ([Dec 79084726407059325 19; Dec 82117466972017006 17], Dec 18030156835221205 19);
  ([Dec 41200800388511039 18; Dec 82117466972017006 17], Dec 41027687344633900 19);
  ([Dec 99210954633345061 18; Dec 82117466972017006 17], Dec 61849394199895236 19);
  ([Dec 17882533027982989 17; Dec 82117466972017006 17], Dec 79339976154088852 19);
  ([Dec 27575362448177654 17; Dec 82117466972017006 17], Dec 92553984016325360 19);
  ([Dec 38477084202243261 17; Dec 82117466972017006 17], Dec 10077859769466497 18);
  ([Dec 50000000000000000 17; Dec 82117466972017006 17], Dec 10357031132006965 18);
  ([Dec 61522915797756739 17; Dec 82117466972017006 17], Dec 10077859769466497 18);
  ([Dec 72424637551822346 17; Dec 82117466972017006 17], Dec 92553984016325360 19);
  ([Dec 82117466972017006 17; Dec 82117466972017006 17], Dec 79339976154088852 19);
  ([Dec 90078904536665494 17; Dec 82117466972017006 17], Dec 61849394199895236 19);
  ([Dec 95879919961148896 17; Dec 82117466972017006 17], Dec 41027687344633900 19);
  ([Dec 99209152735929407 17; Dec 82117466972017006 17], Dec 18030156835221205 19);
  ([Dec 79084726407059325 19; Dec 90078904536665494 17], Dec 14055389623785026 19);
  ([Dec 41200800388511039 18; Dec 90078904536665494 17], Dec 31983090122942280 19);
  ([Dec 99210954633345061 18; Dec 90078904536665494 17], Dec 48214629601913382 19);
  ([Dec 17882533027982989 17; Dec 90078904536665494 17], Dec 61849394199895236 19);
  ([Dec 27575362448177654 17; Dec 90078904536665494 17], Dec 72150360003624698 19);
  ([Dec 38477084202243261 17; Dec 90078904536665494 17], Dec 78561848867013551 19);
  ([Dec 50000000000000000 17; Dec 90078904536665494 17], Dec 80738126260587913 19);
  ([Dec 61522915797756739 17; Dec 90078904536665494 17], Dec 78561848867013551 19);
  ([Dec 72424637551822346 17; Dec 90078904536665494 17], Dec 72150360003624698 19);
  ([Dec 82117466972017006 17; Dec 90078904536665494 17], Dec 61849394199895236 19);
  ([Dec 90078904536665494 17; Dec 90078904536665494 17], Dec 48214629601913382 19);
  ([Dec 95879919961148896 17; Dec 90078904536665494 17], Dec 31983090122942280 19);
  ([Dec 99209152735929407 17; Dec 90078904536665494 17], Dec 14055389623785026 19);
  ([Dec 79084726407059325 19; Dec 95879919961148896 17], Dec 93236180960466113 20);
  ([Dec 41200800388511039 18; Dec 95879919961148896 17], Dec 21215926830881510 19);
  ([Dec 99210954633345061 18; Dec 95879919961148896 17], Dec 31983090122942280 19);
  ([Dec 17882533027982989 17; Dec 95879919961148896 17], Dec 41027687344633900 19);
  ([Dec 27575362448177654 17; Dec 95879919961148896 17], Dec 47860814973617110 19);
  ([Dec 38477084202243261 17; Dec 95879919961148896 17], Dec 52113864884672911 19);
  ([Dec 50000000000000000 17; Dec 95879919961148896 17], Dec 53557494683053623 19);
  ([Dec 61522915797756739 17; Dec 95879919961148896 17], Dec 52113864884672911 19);
  ([Dec 72424637551822346 17; Dec 95879919961148896 17], Dec 47860814973617110 19);
  ([Dec 82117466972017006 17; Dec 95879919961148896 17], Dec 41027687344633900 19);
  ([Dec 90078904536665494 17; Dec 95879919961148896 17], Dec 31983090122942280 19);
  ([Dec 95879919961148896 17; Dec 95879919961148896 17], Dec 21215926830881510 19);
  ([Dec 99209152735929407 17; Dec 95879919961148896 17], Dec 93236180960466113 20);
  ([Dec 79084726407059325 19; Dec 99209152735929407 17], Dec 40973866045952966 20);
  ([Dec 41200800388511039 18; Dec 99209152735929407 17], Dec 93236180960466113 20);
  ([Dec 99210954633345061 18; Dec 99209152735929407 17], Dec 14055389623785026 19);
  ([Dec 17882533027982989 17; Dec 99209152735929407 17], Dec 18030156835221205 19);
  ([Dec 27575362448177654 17; Dec 99209152735929407 17], Dec 21033064646981264 19);
  ([Dec 38477084202243261 17; Dec 99209152735929407 17], Dec 22902123370184906 19);
  ([Dec 50000000000000000 17; Dec 99209152735929407 17], Dec 23536545472950770 19);
  ([Dec 61522915797756739 17; Dec 99209152735929407 17], Dec 22902123370184906 19);
  ([Dec 72424637551822346 17; Dec 99209152735929407 17], Dec 21033064646981264 19);
  ([Dec 82117466972017006 17; Dec 99209152735929407 17], Dec 18030156835221205 19);
  ([Dec 90078904536665494 17; Dec 99209152735929407 17], Dec 14055389623785026 19);
  ([Dec 95879919961148896 17; Dec 99209152735929407 17], Dec 93236180960466113 20);
  ([Dec 99209152735929407 17; Dec 99209152735929407 17], Dec 40973866045952966 20)].

(** FillPointsAndWeights, order 26, 27: Quadrature_Gauss2D_Square.cpp:2561-3152. *)
Definition Square_27 : rule := Rule true [
  ([Dec 68580956515938429 19; Dec 68580956515938429 19], Dec 30834412349837310 20);
  ([Dec 35782558168213241 18; Dec 68580956515938429 19], Dec 70377719056907673 20);
  ([Dec 86399342465117490 18; Dec 68580956515938429 19], Dec 10669166557112501 19);
  ([Dec 15635354759415726 17; Dec 68580956515938429 19], Dec 13802225982594838 19);
  ([Dec 24237568182092295 17; Dec 68580956515938429 19], Dec 16290020975608117 19);
  ([Dec 34044381553605513 17; Dec 68580956515938429 19], Dec 18016148266991161 19);
  ([Dec 44597252564632817 17; Dec 68580956515938429 19], Dec 18899875906398540 19);
  ([Dec 55402747435367183 17; Dec 68580956515938429 19], Dec 18899875906398540 19);
  ([Dec 65955618446394482 17; Dec 68580956515938429 19], Dec 18016148266991161 19);
  ([Dec 75762431817907705 17; Dec 68580956515938429 19], Dec 16290020975608117 19);
  ([Dec 84364645240584268 17; Dec 68580956515938429 19], Dec 13802225982594838 19);
  ([Dec 91360065753488251 17; Dec 68580956515938429 19], Dec 10669166557112501 19);
  ([Dec 96421744183178681 17; Dec 68580956515938429 19], Dec 70377719056907673 20);
  ([Dec 99314190434840621 17; Dec 68580956515938429 19], Dec 30834412349837310 20);
  ([Dec 68580956515938429 19; Dec 35782558168213241 18], Dec 70377719056907673 20);
  ([Dec 35782558168213241 18; Dec 35782558168213241 18], Dec 16063297342779285 19);
  ([Dec 86399342465117490 18; Dec 35782558168213241 18], Dec 24351740451826064 19);
  ([Dec 15635354759415726 17; Dec 35782558168213241 18], Dec 31502762937142079 19);
  ([Dec 24237568182092295 17; Dec 35782558168213241 18], Dec 37181007591296934 19);
  ([Dec 34044381553605513 17; Dec 35782558168213241 18], Dec 41120790850051265 19);
  ([Dec 44597252564632817 17; Dec 35782558168213241 18], Dec 43137846820614128 19);
  ([Dec 55402747435367183 17; Dec 35782558168213241 18], Dec 43137846820614128 19);
  ([Dec 65955618446394482 17; Dec 35782558168213241 18], Dec 41120790850051265 19);
  ([Dec 75762431817907705 17; Dec 35782558168213241 18], Dec 37181007591296934 19);
  ([Dec 84364645240584268 17; Dec 35782558168213241 18], Dec 31502762937142079 19);
  ([Dec 91360065753488251 17; Dec 35782558168213241 18], Dec 24351740451826064 19);
  ([Dec 96421744183178681 17; Dec 35782558168213241 18], Dec 16063297342779285 19);
  ([Dec 99314190434840621 17; Dec 35782558168213241 18], Dec 70377719056907673 20);
  ([Dec 68580956515938429 19; Dec 86399342465117490 18], Dec 10669166557112501 19);
  ([Dec 35782558168213241 18; Dec 86399342465117490 18], Dec 24351740451826064 19);
  ([Dec 86399342465117490 18; Dec 86399342465117490 18], Dec 36916907555077307 19);
  ([Dec 15635354759415726 17; Dec 86399342465117490 18], Dec 47757760451688008 19);
  ([Dec 24237568182092295 17; Dec 86399342465117490 18], Dec 56365902173107661 19);
  ([Dec 34044381553605513 17; Dec 86399342465117490 18], Dec 62338560046913492 19);
  ([Dec 44597252564632817 17; Dec 86399342465117490 18], Dec 65396389484032929 19);
  ([Dec 55402747435367183 17; Dec 86399342465117490 18], Dec 65396389484032929 19);
  ([Dec 65955618446394482 17; Dec 86399342465117490 18], Dec 62338560046913492 19);
  ([Dec 75762431817907705 17; Dec 86399342465117490 18], Dec 56365902173107661 19);
  ([Dec 84364645240584268 17; Dec 86399342465117490 18], Dec 47757760451688008 19);
  ([Dec 91360065753488251 17; Dec 86399342465117490 18], Dec 36916907555077307 19);
  ([Dec 96421744183178681 17; Dec 86399342465117490 18], Dec 24351740451826064 19);
  ([Dec 99314190434840621 17; Dec 86399342465117490 18], Dec 10669166557112501 19);
  ([Dec 68580956515938429 19; Dec 15635354759415726 17], Dec 13802225982594838 19);
  ([Dec 35782558168213241 18; Dec 15635354759415726 17], Dec 31502762937142079 19);
  ([Dec 86399342465117490 18; Dec 15635354759415726 17], Dec 47757760451688008 19);
  ([Dec 15635354759415726 17; Dec 15635354759415726 17], Dec 61782089411417359 19);
  ([Dec 24237568182092295 17; Dec 15635354759415726 17], Dec 72918059282469040 19);
  ([Dec 34044381553605513 17; Dec 15635354759415726 17], Dec 80644620982458365 19);
  ([Dec 44597252564632817 17; Dec 15635354759415726 17], Dec 84600398847714184 19);
  ([Dec 55402747435367183 17; Dec 15635354759415726 17], Dec 84600398847714184 19);
  ([Dec 65955618446394482 17; Dec 15635354759415726 17], Dec 80644620982458365 19);
  ([Dec 75762431817907705 17; Dec 15635354759415726 17], Dec 72918059282469040 19);
  ([Dec 84364645240584268 17; Dec 15635354759415726 17], Dec 61782089411417359 19);
  ([Dec 91360065753488251 17; Dec 15635354759415726 17], Dec 47757760451688008 19);
  ([Dec 96421744183178681 17; Dec 15635354759415726 17], Dec 31502762937142079 19);
  ([Dec 99314190434840621 17; Dec 15635354759415726 17], Dec 13802225982594838 19);
  ([Dec 68580956515938429 19; Dec 24237568182092295 17], Dec 16290020975608117 19);
  ([Dec 35782558168213241 18; Dec 24237568182092295 17], Dec 37181007591296934 19);
  ([Dec 86399342465117490 18; Dec 24237568182092295 17], Dec 56365902173107661 19);
  ([Dec 15635354759415726 17; Dec 24237568182092295 17], Dec 72918059282469040 19);
  ([Dec 24237568182092295 17; Dec 24237568182092295 17], Dec 86061242346703107 19);
  ([Dec 34044381553605513 17; Dec 24237568182092295 17], Dec 95180485309459863 19);
  ([Dec 44597252564632817 17; Dec 24237568182092295 17], Dec 99849276016199841 19);
  ([Dec 55402747435367183 17; Dec 24237568182092295 17], Dec 99849276016199841 19);
  ([Dec 65955618446394482 17; Dec 24237568182092295 17], Dec 95180485309459863 19);
  ([Dec 75762431817907705 17; Dec 24237568182092295 17], Dec 86061242346703107 19);
  ([Dec 84364645240584268 17; Dec 24237568182092295 17], Dec 72918059282469040 19);
  ([Dec 91360065753488251 17; Dec 24237568182092295 17], Dec 56365902173107661 19);
  ([Dec 96421744183178681 17; Dec 24237568182092295 17], Dec 37181007591296934 19);
  ([Dec 99314190434840621 17; Dec 24237568182092295 17], Dec 16290020975608117 19);
  ([Dec 68580956515938429 19; Dec 34044381553605513 17], Dec 18016148266991161 19);
  ([Dec 35782558168213241 18; Dec 34044381553605513 17], Dec 41120790850051265 19);
  ([Dec 86399342465117490 18; Dec 34044381553605513 17], Dec 62338560046913492 19);
  ([Dec 15635354759415726 17; Dec 34044381553605513 17], Dec 80644620982458365 19);
  ([Dec 24237568182092295 17; Dec 34044381553605513 17], Dec 95180485309459863 19);
  ([Dec 34044381553605513 17; Dec 34044381553605513 17], Dec 10526602378394968 18);
  ([Dec 44597252564632817 17; Dec 34044381553605513 17], Dec 11042953006341519 18);
  ([Dec 55402747435367183 17; Dec 34044381553605513 17], Dec 11042953006341519 18);
  ([Dec 65955618446394482 17; Dec 34044381553605513 17], Dec 10526602378394968 18);
  ([Dec 75762431817907705 17; Dec 34044381553605513 17], Dec 95180485309459863 19);
  ([Dec 84364645240584268 17; Dec 34044381553605513 17], Dec 80644620982458365 19);
  ([Dec 91360065753488251 17; Dec 34044381553605513 17], Dec 62338560046913492 19);
  ([Dec 96421744183178681 17; Dec 34044381553605513 17], Dec 41120790850051265 19);
  ([Dec 99314190434840621 17; Dec 34044381553605513 17], Dec 18016148266991161 19);
  ([Dec 68580956515938429 19; Dec 44597252564632817 17], Dec 18899875906398540 19);
  ([Dec 35782558168213241 18; Dec 44597252564632817 17], Dec 43137846820614128 19);
  ([Dec 86399342465117490 18; Dec 44597252564632817 17], Dec 65396389484032929 19);
  ([Dec 15635354759415726 17; Dec 44597252564632817 17], Dec 84600398847714184 19);
  ([Dec 24237568182092295 17; Dec 44597252564632817 17], Dec 99849276016199841 19);
  ([Dec 34044381553605513 17; Dec 44597252564632817 17], Dec 11042953006341519 18);
  ([Dec 44597252564632817 17; Dec 44597252564632817 17], Dec 11584631651951968 18);
  ([Dec 55402747435367183 17; Dec 44597252564632817 17], Dec 11584631651951968 18);
  ([Dec 65955618446394482 17; Dec 44597252564632817 17], Dec 11042953006341519 18);
  ([Dec 75762431817907705 17; Dec 44597252564632817 17], Dec 99849276016199841 19);
  ([Dec 84364645240584268 17; Dec 44597252564632817 17], Dec 84600398847714184 19);
  ([Dec 91360065753488251 17; Dec 44597252564632817 17], Dec 65396389484032929 19);
  ([Dec 96421744183178681 17; Dec 44597252564632817 17], Dec 43137846820614128 19);
  ([Dec 99314190434840621 17; Dec 44597252564632817 17], Dec 18899875906398540 19);
  ([Dec 68580956515938429 19; Dec 55402747435367183 17], Dec 18899875906398540 19);
  ([Dec 35782558168213241 18; Dec 55402747435367183 17], Dec 43137846820614128 19);
  ([Dec 86399342465117490 18; Dec 55402747435367183 17], Dec 65396389484032929 19);
  ([Dec 15635354759415726 17; Dec 55402747435367183 17], Dec 84600398847714184 19);
  ([Dec 24237568182092295 17; Dec 55402747435367183 17], Dec 99849276016199841 19);
  ([Dec 34044381553605513 17; Dec 55402747435367183 17], Dec 11042953006341519 18);
  ([Dec 44597252564632817 17; Dec 55402747435367183 17], Dec 11584631651951968 18);
  ([Dec 55402747435367183 17; Dec 55402747435367183 17], Dec 11584631651951968 18);
  ([Dec 65955618446394482 17; Dec 55402747435367183 17], Dec 11042953006341519 18);
  ([Dec 75762431817907705 17; Dec 55402747435367183 17], Dec 99849276016199841 19);
  ([Dec 84364645240584268 17; Dec 55402747435367183 17], Dec 84600398847714184 19);
  ([Dec 91360065753488251 17; Dec 55402747435367183 17], Dec 65396389484032929 19);
  ([Dec 96421744183178681 17; Dec 55402747435367183 17], Dec 43137846820614128 19);
  ([Dec 99314190434840621 17; Dec 55402747435367183 17], Dec 18899875906398540 19);
  ([Dec 68580956515938429 19; Dec 65955618446394482 17], Dec 18016148266991161 19);
  ([Dec 35782558168213241 18; Dec 65955618446394482 17], Dec 41120790850051265 19);
  ([Dec 86399342465117490 18; Dec 65955618446394482 17], Dec 62338560046913492 19);
  ([Dec 15635354759415726 17; Dec 65955618446394482 17], Dec 80644620982458365 19);
  ([Dec 24237568182092295 17; Dec 65955618446394482 17], Dec 95180485309459863 19);
  ([Dec 34044381553605513 17; Dec 65955618446394482 17], Dec 10526602378394968 18);
  ([Dec 44597252564632817 17; Dec 65955618446394482 17], Dec 11042953006341519 18);
  ([Dec 55402747435367183 17; Dec 65955618446394482 17], Dec 11042953006341519 18);
  ([Dec 65955618446394482 17; Dec 65955618446394482 17], Dec 10526602378394968 18);
  ([Dec 75762431817907705 17; Dec 65955618446394482 17], Dec 95180485309459863 19);
  ([Dec 84364645240584268 17; Dec 65955618446394482 17], Dec 80644620982458365 19);
  ([Dec 91360065753488251 17; Dec 65955618446394482 17], Dec 62338560046913492 19);
  ([Dec 96421744183178681 17; Dec 65955618446394482 17], Dec 41120790850051265 19);
  ([Dec 99314190434840621 17; Dec 65955618446394482 17], Dec 18016148266991161 19);
  ([Dec 68580956515938429 19; Dec 75762431817907705 17], Dec 16290020975608117 19);
  ([Dec 35782558168213241 18; Dec 75762431817907705 17], Dec 37181007591296934 19);
  ([Dec 86399342465117490 18; Dec 75762431817907705 17], Dec 56365902173107661 19);
  ([Dec 15635354759415726 17; Dec 75762431817907705 17], Dec 72918059282469040 19);
  ([Dec 24237568182092295 17; Dec 75762431817907705 17], Dec 86061242346703107 19);
  ([Dec 34044381553605513 17; Dec 75762431817907705 17], Dec 95180485309459863 19);
  ([Dec 44597252564632817 17; Dec 75762431817907705 17], Dec 99849276016199841 19);
  ([Dec 55402747435367183 17; Dec 75762431817907705 17], Dec 99849276016199841 19);
  ([Dec 65955618446394482 17; Dec 75762431817907705 17], Dec 95180485309459863 19);
  ([Dec 75762431817907705 17; Dec 75762431817907705 17], Dec 86061242346703107 19);
  ([Dec 84364645240584268 17; Dec 75762431817907705 17], Dec 72918059282469040 19);
  ([Dec 91360065753488251 17; Dec 75762431817907705 17], Dec 56365902173107661 19);
  ([Dec 96421744183178681 17; Dec 75762431817907705 17], Dec 37181007591296934 19);
  ([Dec 99314190434840621 17; Dec 75762431817907705 17], Dec 16290020975608117 19);
  ([Dec 68580956515938429 19; Dec 84364645240584268 17], Dec 13802225982594838 19);
  ([Dec 35782558168213241 18; Dec 84364645240584268 17], Dec 31502762937142079 19);
  ([Dec 86399342465117490 18; Dec 84364645240584268 17], Dec 47757760451688008 19);
  ([Dec 15635354759415726 17; Dec 84364645240584268 17], Dec 61782089411417359 19);
  ([Dec 24237568182092295 17; Dec 84364645240584268 17], Dec 72918059282469040 19);
  ([Dec 34044381553605513 17; Dec 84364645240584268 17], Dec 80644620982458365 19);
  ([Dec 44597252564632817 17; Dec 84364645240584268 17], Dec 84600398847714184 19);
  ([Dec 55402747435367183 17; Dec 84364645240584268 17], Dec 84600398847714184 19);
  ([Dec 65955618446394482 17; Dec 84364645240584268 17], Dec 80644620982458365 19);
  ([Dec 75762431817907705 17; Dec 84364645240584268 17], Dec 72918059282469040 19);
  ([Dec 84364645240584268 17; Dec 84364645240584268 17], Dec 61782089411417359 19);
  ([Dec 91360065753488251 17; Dec 84364645240584268 17], Dec 47757760451688008 19);
  ([Dec 96421744183178681 17; Dec 84364645240584268 17], Dec 31502762937142079 19);
  ([Dec 99314190434840621 17; Dec 84364645240584268 17], Dec 13802225982594838 19);
  ([Dec 68580956515938429 19; Dec 91360065753488251 17], Dec 10669166557112501 19);
  ([Dec 35782558168213241 18; Dec 91360065753488251 17], Dec 24351740451826064 19);
  ([Dec 86399342465117490 18; Dec 91360065753488251 17], Dec 36916907555077307 19);
  ([Dec 15635354759415726 17; Dec 91360065753488251 17], Dec 47757760451688008 19);
  ([Dec 24237568182092295 17; Dec 91360065753488251 17], Dec 56365902173107661 19);
  ([Dec 34044381553605513 17; Dec 91360065753488251 17], Dec 62338560046913492 19);
  ([Dec 44597252564632817 17; Dec 91360065753488251 17], Dec 65396389484032929 19);
  ([Dec 55402747435367183 17; Dec 91360065753488251 17], Dec 65396389484032929 19);
  ([Dec 65955618446394482 17; Dec 91360065753488251 17], Dec 62338560046913492 19);
  ([Dec 75762431817907705 17; Dec 91360065753488251 17], Dec 56365902173107661 19);
  ([Dec 84364645240584268 17; Dec 91360065753488251 17], Dec 47757760451688008 19);
  ([Dec 91360065753488251 17; Dec 91360065753488251 17], Dec 36916907555077307 19);
  ([Dec 96421744183178681 17; Dec 91360065753488251 17], Dec 24351740451826064 19);
  ([Dec 99314190434840621 17; Dec 91360065753488251 17], Dec 10669166557112501 19);
  ([Dec 68580956515938429 19; Dec 96421744183178681 17], Dec 70377719056907673 20);
  ([Dec 35782558168213241 18; Dec 96421744183178681 17], Dec 16063297342779285 19);
  ([Dec 86399342465117490 18; Dec 96421744183178681 17], Dec 24351740451826064 19);
  ([Dec 15635354759415726 17; Dec 96421744183178681 17], Dec 31502762937142079 19);
  ([Dec 24237568182092295 17; Dec 96421744183178681 17], Dec 37181007591296934 19);
  ([Dec 34044381553605513 17; Dec 96421744183178681 17], Dec 41120790850051265 19);
  ([Dec 44597252564632817 17; Dec 96421744183178681 17], Dec 43137846820614128 19);
  ([Dec 55402747435367183 17; Dec 96421744183178681 17], Dec 43137846820614128 19);
  ([Dec 65955618446394482 17; Dec 96421744183178681 17], Dec 41120790850051265 19);
  ([Dec 75762431817907705 17; Dec 96421744183178681 17], Dec 37181007591296934 19);
  ([Dec 84364645240584268 17; Dec 96421744183178681 17], Dec 31502762937142079 19);
  ([Dec 91360065753488251 17; Dec 96421744183178681 17], Dec 24351740451826064 19);
  ([Dec 96421744183178681 17; Dec 96421744183178681 17], Dec 16063297342779285 19);
  ([Dec 99314190434840621 17; Dec 96421744183178681 17], Dec 70377719056907673 20);
  ([Dec 68580956515938429 19; Dec 99314190434840621 17], Dec 30834412349837310 20);
  ([Dec 35782558168213241 18; Dec 99314190434840621 17], Dec 70377719056907673 20);
  ([Dec 86399342465117490 18; Dec 99314190434840621 17], Dec 10669166557112501 19);
  ([Dec 15635354759415726 17; Dec 99314190434840621 17], Dec 13802225982594838 19);
  ([Dec 24237568182092295 17; Dec 99314190434840621 17], Dec 16290020975608117 19);
  ([Dec 34044381553605513 17; Dec 99314190434840621 17], Dec 18016148266991161 19);
  ([Dec 44597252564632817 17; Dec 99314190434840621 17], Dec 18899875906398540 19);
  ([Dec 55402747435367183 17; Dec 99314190434840621 17], Dec 18899875906398540 19);
  ([Dec 65955618446394482 17; Dec 99314190434840621 17], Dec 18016148266991161 19);
  ([Dec 75762431817907705 17; Dec 99314190434840621 17], Dec 16290020975608117 19);
  ([Dec 84364645240584268 17; Dec 99314190434840621 17], Dec 13802225982594838 19);
  ([Dec 91360065753488251 17; Dec 99314190434840621 17], Dec 10669166557112501 19);
  ([Dec 96421744183178681 17; Dec 99314190434840621 17], Dec 70377719056907673 20);
  ([Dec 99314190434840621 17; Dec 99314190434840621 17], Dec 30834412349837310 20)].

(** FillPointsAndWeights, order 28, 29: Quadrature_Gauss2D_Square.cpp:3155-3833. *)
Definition Square_29 : rule := Rule true [
  ([Dec 60037409897573113 19; Dec 60037409897573113 19], Dec 23644047331793772 20);
  ([Dec 31363303799647024 18; Dec 60037409897573113 19], Dec 54099602167801721 20);
  ([Dec 75896708294786397 18; Dec 60037409897573113 19], Dec 82387335978555533 20);
  ([Dec 13779113431991497 17; Dec 60037409897573113 19], Dec 10730627084562917 19);
  ([Dec 21451391369573058 17; Dec 60037409897573113 19], Dec 12783292807480608 19);
  ([Dec 30292432646121831 17; Dec 60037409897573113 19], Dec 14312635709294438 19);
  ([Dec 39940295300128276 17; Dec 60037409897573113 19], Dec 15256028719784138 19);
  ([Dec 50000000000000000 17; Dec 60037409897573113 19], Dec 15574844242711940 19);
  ([Dec 60059704699871730 17; Dec 60037409897573113 19], Dec 15256028719784138 19);
  ([Dec 69707567353878175 17; Dec 60037409897573113 19], Dec 14312635709294438 19);
  ([Dec 78548608630426942 17; Dec 60037409897573113 19], Dec 12783292807480608 19);
  ([Dec 86220886568008503 17; Dec 60037409897573113 19], Dec 10730627084562917 19);
  ([Dec 92410329170521366 17; Dec 60037409897573113 19], Dec 82387335978555533 20);
  ([Dec 96863669620035298 17; Dec 60037409897573113 19], Dec 54099602167801721 20);
  ([Dec 99399625901024269 17; Dec 60037409897573113 19], Dec 23644047331793772 20);
  ([Dec 60037409897573113 19; Dec 31363303799647024 18], Dec 54099602167801721 20);
  ([Dec 31363303799647024 18; Dec 31363303799647024 18], Dec 12378451597746720 19);
  ([Dec 75896708294786397 18; Dec 31363303799647024 18], Dec 18850926990454171 19);
  ([Dec 13779113431991497 17; Dec 31363303799647024 18], Dec 24552592377248047 19);
  ([Dec 21451391369573058 17; Dec 31363303799647024 18], Dec 29249267080821545 19);
  ([Dec 30292432646121831 17; Dec 31363303799647024 18], Dec 32748534418821870 19);
  ([Dec 39940295300128276 17; Dec 31363303799647024 18], Dec 34907098299158412 19);
  ([Dec 50000000000000000 17; Dec 31363303799647024 18], Dec 35636575478478756 19);
  ([Dec 60059704699871730 17; Dec 31363303799647024 18], Dec 34907098299158412 19);
  ([Dec 69707567353878175 17; Dec 31363303799647024 18], Dec 32748534418821870 19);
  ([Dec 78548608630426942 17; Dec 31363303799647024 18], Dec 29249267080821545 19);
  ([Dec 86220886568008503 17; Dec 31363303799647024 18], Dec 24552592377248047 19);
  ([Dec 92410329170521366 17; Dec 31363303799647024 18], Dec 18850926990454171 19);
  ([Dec 96863669620035298 17; Dec 31363303799647024 18], Dec 12378451597746720 19);
  ([Dec 99399625901024269 17; Dec 31363303799647024 18], Dec 54099602167801721 20);
  ([Dec 60037409897573113 19; Dec 75896708294786397 18], Dec 82387335978555533 20);
  ([Dec 31363303799647024 18; Dec 75896708294786397 18], Dec 18850926990454171 19);
  ([Dec 75896708294786397 18; Dec 75896708294786397 18], Dec 28707746327829905 19);
  ([Dec 13779113431991497 17; Dec 75896708294786397 18], Dec 37390712616603549 19);
  ([Dec 21451391369573058 17; Dec 75896708294786397 18], Dec 44543196207612098 19);
  ([Dec 30292432646121831 17; Dec 75896708294786397 18], Dec 49872169107642072 19);
  ([Dec 39940295300128276 17; Dec 75896708294786397 18], Dec 53159408209490855 19);
  ([Dec 50000000000000000 17; Dec 75896708294786397 18], Dec 54270316220883293 19);
  ([Dec 60059704699871730 17; Dec 75896708294786397 18], Dec 53159408209490855 19);
  ([Dec 69707567353878175 17; Dec 75896708294786397 18], Dec 49872169107642072 19);
  ([Dec 78548608630426942 17; Dec 75896708294786397 18], Dec 44543196207612098 19);
  ([Dec 86220886568008503 17; Dec 75896708294786397 18], Dec 37390712616603549 19);
  ([Dec 92410329170521366 17; Dec 75896708294786397 18], Dec 28707746327829905 19);
  ([Dec 96863669620035298 17; Dec 75896708294786397 18], Dec 18850926990454171 19);
  ([Dec 99399625901024269 17; Dec 75896708294786397 18], Dec 82387335978555533 20);
  ([Dec 60037409897573113 19; Dec 13779113431991497 17], Dec 10730627084562917 19);
  ([Dec 31363303799647024 18; Dec 13779113431991497 17], Dec 24552592377248047 19);
  ([Dec 75896708294786397 18; Dec 13779113431991497 17], Dec 37390712616603549 19);
  ([Dec 13779113431991497 17; Dec 13779113431991497 17], Dec 48699935341915751 19);
  ([Dec 21451391369573058 17; Dec 13779113431991497 17], Dec 58015764435302812 19);
  ([Dec 30292432646121831 17; Dec 13779113431991497 17], Dec 64956542438957109 19);
  ([Dec 39940295300128276 17; Dec 13779113431991497 17], Dec 69238042322496765 19);
  ([Dec 50000000000000000 17; Dec 13779113431991497 17], Dec 70684956396597715 19);
  ([Dec 60059704699871730 17; Dec 13779113431991497 17], Dec 69238042322496765 19);
  ([Dec 69707567353878175 17; Dec 13779113431991497 17], Dec 64956542438957109 19);
  ([Dec 78548608630426942 17; Dec 13779113431991497 17], Dec 58015764435302812 19);
  ([Dec 86220886568008503 17; Dec 13779113431991497 17], Dec 48699935341915751 19);
  ([Dec 92410329170521366 17; Dec 13779113431991497 17], Dec 37390712616603549 19);
  ([Dec 96863669620035298 17; Dec 13779113431991497 17], Dec 24552592377248047 19);
  ([Dec 99399625901024269 17; Dec 13779113431991497 17], Dec 10730627084562917 19);
  ([Dec 60037409897573113 19; Dec 21451391369573058 17], Dec 12783292807480608 19);
  ([Dec 31363303799647024 18; Dec 21451391369573058 17], Dec 29249267080821545 19);
  ([Dec 75896708294786397 18; Dec 21451391369573058 17], Dec 44543196207612098 19);
  ([Dec 13779113431991497 17; Dec 21451391369573058 17], Dec 58015764435302812 19);
  ([Dec 21451391369573058 17; Dec 21451391369573058 17], Dec 69113622007534710 19);
  ([Dec 30292432646121831 17; Dec 21451391369573058 17], Dec 77382104066712303 19);
  ([Dec 39940295300128276 17; Dec 21451391369573058 17], Dec 82482613686063310 19);
  ([Dec 50000000000000000 17; Dec 21451391369573058 17], Dec 84206308501914833 19);
  ([Dec 60059704699871730 17; Dec 21451391369573058 17], Dec 82482613686063310 19);
  ([Dec 69707567353878175 17; Dec 21451391369573058 17], Dec 77382104066712303 19);
  ([Dec 78548608630426942 17; Dec 21451391369573058 17], Dec 69113622007534710 19);
  ([Dec 86220886568008503 17; Dec 21451391369573058 17], Dec 58015764435302812 19);
  ([Dec 92410329170521366 17; Dec 21451391369573058 17], Dec 44543196207612098 19);
  ([Dec 96863669620035298 17; Dec 21451391369573058 17], Dec 29249267080821545 19);
  ([Dec 99399625901024269 17; Dec 21451391369573058 17], Dec 12783292807480608 19);
  ([Dec 60037409897573113 19; Dec 30292432646121831 17], Dec 14312635709294438 19);
  ([Dec 31363303799647024 18; Dec 30292432646121831 17], Dec 32748534418821870 19);
  ([Dec 75896708294786397 18; Dec 30292432646121831 17], Dec 49872169107642072 19);
  ([Dec 13779113431991497 17; Dec 30292432646121831 17], Dec 64956542438957109 19);
  ([Dec 21451391369573058 17; Dec 30292432646121831 17], Dec 77382104066712303 19);
  ([Dec 30292432646121831 17; Dec 30292432646121831 17], Dec 86639794816985392 19);
  ([Dec 39940295300128276 17; Dec 30292432646121831 17], Dec 92350509357671130 19);
  ([Dec 50000000000000000 17; Dec 30292432646121831 17], Dec 94280420245642458 19);
  ([Dec 60059704699871730 17; Dec 30292432646121831 17], Dec 92350509357671130 19);
  ([Dec 69707567353878175 17; Dec 30292432646121831 17], Dec 86639794816985392 19);
  ([Dec 78548608630426942 17; Dec 30292432646121831 17], Dec 77382104066712303 19);
  ([Dec 86220886568008503 17; Dec 30292432646121831 17], Dec 64956542438957109 19);
  ([Dec 92410329170521366 17; Dec 30292432646121831 17], Dec 49872169107642072 19);
  ([Dec 96863669620035298 17; Dec 30292432646121831 17], Dec 32748534418821870 19);
  ([Dec 99399625901024269 17; Dec 30292432646121831 17], Dec 14312635709294438 19);
  ([Dec 60037409897573113 19; Dec 39940295300128276 17], Dec 15256028719784138 19);
  ([Dec 31363303799647024 18; Dec 39940295300128276 17], Dec 34907098299158412 19);
  ([Dec 75896708294786397 18; Dec 39940295300128276 17], Dec 53159408209490855 19);
  ([Dec 13779113431991497 17; Dec 39940295300128276 17], Dec 69238042322496765 19);
  ([Dec 21451391369573058 17; Dec 39940295300128276 17], Dec 82482613686063310 19);
  ([Dec 30292432646121831 17; Dec 39940295300128276 17], Dec 92350509357671130 19);
  ([Dec 39940295300128276 17; Dec 39940295300128276 17], Dec 98437635922809241 19);
  ([Dec 50000000000000000 17; Dec 39940295300128276 17], Dec 10049475360061018 18);
  ([Dec 60059704699871730 17; Dec 39940295300128276 17], Dec 98437635922809241 19);
  ([Dec 69707567353878175 17; Dec 39940295300128276 17], Dec 92350509357671130 19);
  ([Dec 78548608630426942 17; Dec 39940295300128276 17], Dec 82482613686063310 19);
  ([Dec 86220886568008503 17; Dec 39940295300128276 17], Dec 69238042322496765 19);
  ([Dec 92410329170521366 17; Dec 39940295300128276 17], Dec 53159408209490855 19);
  ([Dec 96863669620035298 17; Dec 39940295300128276 17], Dec 34907098299158412 19);
  ([Dec 99399625901024269 17; Dec 39940295300128276 17], Dec 15256028719784138 19);
  ([Dec 60037409897573113 19; Dec 50000000000000000 17], Dec 15574844242711940 19);
  ([Dec 31363303799647024 18; Dec 50000000000000000 17], Dec 35636575478478756 19);
  ([Dec 75896708294786397 18; Dec 50000000000000000 17], Dec 54270316220883293 19);
  ([Dec 13779113431991497 17; Dec 50000000000000000 17], Dec 70684956396597715 19);
  ([Dec 21451391369573058 17; Dec 50000000000000000 17], Dec 84206308501914833 19);
  ([Dec 30292432646121831 17; Dec 50000000000000000 17], Dec 94280420245642458 19);
  ([Dec 39940295300128276 17; Dec 50000000000000000 17], Dec 10049475360061018 18);
  ([Dec 50000000000000000 17; Dec 50000000000000000 17], Dec 10259486025412809 18);
  ([Dec 60059704699871730 17; Dec 50000000000000000 17], Dec 10049475360061018 18);
  ([Dec 69707567353878175 17; Dec 50000000000000000 17], Dec 94280420245642458 19);
  ([Dec 78548608630426942 17; Dec 50000000000000000 17], Dec 84206308501914833 19);
  ([Dec 86220886568008503 17; Dec 50000000000000000 17], Dec 70684956396597715 19);
  ([Dec 92410329170521366 17; Dec 50000000000000000 17], Dec 54270316220883293 19);
  ([Dec 96863669620035298 17; Dec 50000000000000000 17], Dec 35636575478478756 19);
  ([Dec 99399625901024269 17; Dec 50000000000000000 17], Dec 15574844242711940 19);
  ([Dec 60037409897573113 19; Dec 60059704699871730 17], Dec 15256028719784138 19);
  ([Dec 31363303799647024 18; Dec 60059704699871730 17], Dec 34907098299158412 19);
  ([Dec 75896708294786397 18; Dec 60059704699871730 17], Dec 53159408209490855 19);
  ([Dec 13779113431991497 17; Dec 60059704699871730 17], Dec 69238042322496765 19);
  ([Dec 21451391369573058 17; Dec 60059704699871730 17], Dec 82482613686063310 19);
  ([Dec 30292432646121831 17; Dec 60059704699871730 17], Dec 92350509357671130 19);
  ([Dec 39940295300128276 17; Dec 60059704699871730 17], Dec 98437635922809241 19);
  ([Dec 50000000000000000 17; Dec 60059704699871730 17], Dec 10049475360061018 18);
  ([Dec 60059704699871730 17; Dec 60059704699871730 17], Dec 98437635922809241 19);
  ([Dec 69707567353878175 17; Dec 60059704699871730 17], Dec 92350509357671130 19);
  ([Dec 78548608630426942 17; Dec 60059704699871730 17], Dec 82482613686063310 19);
  ([Dec 86220886568008503 17; Dec 60059704699871730 17], Dec 69238042322496765 19);
  ([Dec 92410329170521366 17; Dec 60059704699871730 17], Dec 53159408209490855 19);
  ([Dec 96863669620035298 17; Dec 60059704699871730 17], Dec 34907098299158412 19);
  ([Dec 99399625901024269 17; Dec 60059704699871730 17], Dec 15256028719784138 19);
  ([Dec 60037409897573113 19; Dec 69707567353878175 17], Dec 14312635709294438 19);
  ([Dec 31363303799647024 18; Dec 69707567353878175 17], Dec 32748534418821870 19);
  ([Dec 75896708294786397 18; Dec 69707567353878175 17], Dec 49872169107642072 19);
  ([Dec 13779113431991497 17; Dec 69707567353878175 17], Dec 64956542438957109 19);
  ([Dec 21451391369573058 17; Dec 69707567353878175 17], Dec 77382104066712303 19);
  ([Dec 30292432646121831 17; Dec 69707567353878175 17], Dec 86639794816985392 19);
  ([Dec 39940295300128276 17; Dec 69707567353878175 17], Dec 92350509357671130 19);
  ([Dec 50000000000000000 17; Dec 69707567353878175 17], Dec 94280420245642458 19);
  ([Dec 60059704699871730 17; Dec 69707567353878175 17], Dec 92350509357671130 19);
  ([Dec 69707567353878175 17; Dec 69707567353878175 17], Dec 86639794816985392 19);
  ([Dec 78548608630426942 17; Dec 69707567353878175 17], Dec 77382104066712303 19);
  ([Dec 86220886568008503 17; Dec 69707567353878175 17], Dec 64956542438957109 19);
  ([Dec 92410329170521366 17; Dec 69707567353878175 17], Dec 49872169107642072 19);
  ([Dec 96863669620035298 17; Dec 69707567353878175 17], Dec 32748534418821870 19);
  ([Dec 99399625901024269 17; Dec 69707567353878175 17], Dec 14312635709294438 19);
  ([Dec 60037409897573113 19; Dec 78548608630426942 17], Dec 12783292807480608 19);
  ([Dec 31363303799647024 18; Dec 78548608630426942 17], Dec 29249267080821545 19);
  ([Dec 75896708294786397 18; Dec 78548608630426942 17], Dec 44543196207612098 19);
  ([Dec 13779113431991497 17; Dec 78548608630426942 17], Dec 58015764435302812 19);
  ([Dec 21451391369573058 17; Dec 78548608630426942 17], Dec 69113622007534710 19);
  ([Dec 30292432646121831 17; Dec 78548608630426942 17], Dec 77382104066712303 19);
  ([Dec 39940295300128276 17; Dec 78548608630426942 17], Dec 82482613686063310 19);
  ([Dec 50000000000000000 17; Dec 78548608630426942 17], Dec 84206308501914833 19);
  ([Dec 60059704699871730 17; Dec 78548608630426942 17], Dec 82482613686063310 19);
  ([Dec 69707567353878175 17; Dec 78548608630426942 17], Dec 77382104066712303 19);
  ([Dec 78548608630426942 17; Dec 78548608630426942 17], Dec 69113622007534710 19);
  ([Dec 86220886568008503 17; Dec 78548608630426942 17], Dec 58015764435302812 19);
  ([Dec 92410329170521366 17; Dec 78548608630426942 17], Dec 44543196207612098 19);
  ([Dec 96863669620035298 17; Dec 78548608630426942 17], Dec 29249267080821545 19);
  ([Dec 99399625901024269 17; Dec 78548608630426942 17], Dec 12783292807480608 19);
  ([Dec 60037409897573113 19; Dec 86220886568008503 17], Dec 10730627084562917 19);
  ([Dec 31363303799647024 18; Dec 86220886568008503 17], Dec 24552592377248047 19);
  ([Dec 75896708294786397 18; Dec 86220886568008503 17], Dec 37390712616603549 19);
  ([Dec 13779113431991497 17; Dec 86220886568008503 17], Dec 48699935341915751 19);
  ([Dec 21451391369573058 17; Dec 86220886568008503 17], Dec 58015764435302812 19);
  ([Dec 30292432646121831 17; Dec 86220886568008503 17], Dec 64956542438957109 19);
  ([Dec 39940295300128276 17; Dec 86220886568008503 17], Dec 69238042322496765 19);
  ([Dec 50000000000000000 17; Dec 86220886568008503 17], Dec 70684956396597715 19);
  ([Dec 60059704699871730 17; Dec 86220886568008503 17], Dec 69238042322496765 19);
  ([Dec 69707567353878175 17; Dec 86220886568008503 17], Dec 64956542438957109 19);
  ([Dec 78548608630426942 17; Dec 86220886568008503 17], Dec 58015764435302812 19);
  ([Dec 86220886568008503 17; Dec 86220886568008503 17], Dec 48699935341915751 19);
  ([Dec 92410329170521366 17; Dec 86220886568008503 17], Dec 37390712616603549 19);
  ([Dec 96863669620035298 17; Dec 86220886568008503 17], Dec 24552592377248047 19);
  ([Dec 99399625901024269 17; Dec 86220886568008503 17], Dec 10730627084562917 19);
  ([Dec 60037409897573113 19; Dec 92410329170521366 17], Dec 82387335978555533 20);
  ([Dec 31363303799647024 18; Dec 92410329170521366 17], Dec 18850926990454171 19);
  ([Dec 75896708294786397 18; Dec 92410329170521366 17], Dec 28707746327829905 19);
  ([Dec 13779113431991497 17; Dec 92410329170521366 17], Dec 37390712616603549 19);
  ([Dec 21451391369573058 17; Dec 92410329170521366 17], Dec 44543196207612098 19);
  ([Dec 30292432646121831 17; Dec 92410329170521366 17], Dec 49872169107642072 19);
  ([Dec 39940295300128276 17; Dec 92410329170521366 17], Dec 53159408209490855 19);
  ([Dec 50000000000000000 17; Dec 92410329170521366 17], Dec 54270316220883293 19);
  ([Dec 60059704699871730 17; Dec 92410329170521366 17], Dec 53159408209490855 19);
  ([Dec 69707567353878175 17; Dec 92410329170521366 17], Dec 49872169107642072 19);
  ([Dec 78548608630426942 17; Dec 92410329170521366 17], Dec 44543196207612098 19);
  ([Dec 86220886568008503 17; Dec 92410329170521366 17], Dec 37390712616603549 19);
  ([Dec 92410329170521366 17; Dec 92410329170521366 17], Dec 28707746327829905 19);
  ([Dec 96863669620035298 17; Dec 92410329170521366 17], Dec 18850926990454171 19);
  ([Dec 99399625901024269 17; Dec 92410329170521366 17], Dec 82387335978555533 20);
  ([Dec 60037409897573113 19; Dec 96863669620035298 17], Dec 54099602167801721 20);
  ([Dec 31363303799647024 18; Dec 96863669620035298 17], Dec 12378451597746720 19);
  ([Dec 75896708294786397 18; Dec 96863669620035298 17], Dec 18850926990454171 19);
  ([Dec 13779113431991497 17; Dec 96863669620035298 17], Dec 24552592377248047 19);
  ([Dec 21451391369573058 17; Dec 96863669620035298 17], Dec 29249267080821545 19);
  ([Dec 30292432646121831 17; Dec 96863669620035298 17], Dec 32748534418821870 19);
  ([Dec 39940295300128276 17; Dec 96863669620035298 17], Dec 34907098299158412 19);
  ([Dec 50000000000000000 17; Dec 96863669620035298 17], Dec 35636575478478756 19);
  ([Dec 60059704699871730 17; Dec 96863669620035298 17], Dec 34907098299158412 19);
  ([Dec 69707567353878175 17; Dec 96863669620035298 17], Dec 32748534418821870 19);
  ([Dec 78548608630426942 17; Dec 96863669620035298 17], Dec 29249267080821545 19);
  ([Dec 86220886568008503 17; Dec 96863669620035298 17], Dec 24552592377248047 19);
  ([Dec 92410329170521366 17; Dec 96863669620035298 17], Dec 18850926990454171 19);
  ([Dec 96863669620035298 17; Dec 96863669620035298 17], Dec 12378451597746720 19);
  ([Dec 99399625901024269 17; Dec 96863669620035298 17], Dec 54099602167801721 20);
  ([Dec 60037409897573113 19; Dec 99399625901024269 17], Dec 23644047331793772 20);
  ([Dec 31363303799647024 18; Dec 99399625901024269 17], Dec 54099602167801721 20);
  ([Dec 75896708294786397 18; Dec 99399625901024269 17], Dec 82387335978555533 20);
  ([Dec 13779113431991497 17; Dec 99399625901024269 17], Dec 10730627084562917 19);
  ([Dec 21451391369573058 17; Dec 99399625901024269 17], Dec 12783292807480608 19);
  ([Dec 30292432646121831 17; Dec 99399625901024269 17], Dec 14312635709294438 19);
  ([Dec 39940295300128276 17; Dec 99399625901024269 17], Dec 15256028719784138 19);
  ([Dec 50000000000000000 17; Dec 99399625901024269 17], Dec 15574844242711940 19);
  ([Dec 60059704699871730 17; Dec 99399625901024269 17], Dec 15256028719784138 19);
  ([Dec 69707567353878175 17; Dec 99399625901024269 17], Dec 14312635709294438 19);
  ([Dec 78548608630426942 17; Dec 99399625901024269 17], Dec 12783292807480608 19);
  ([Dec 86220886568008503 17; Dec 99399625901024269 17], Dec 10730627084562917 19);
  ([Dec 92410329170521366 17; Dec 99399625901024269 17], Dec 82387335978555533 20);
  ([Dec 96863669620035298 17; Dec 99399625901024269 17], Dec 54099602167801721 20);
  ([Dec 99399625901024269 17; Dec 99399625901024269 17], Dec 23644047331793772 20)].

(** FillPointsAndWeights, order 30, 31: Quadrature_Gauss2D_Square.cpp:3836-4607. *)
Definition Square_31 : rule := Rule true [
  ([Dec 52995325041750307 19; Dec 52995325041750307 19], Dec 18431401302673839 20);
  ([Dec 27712488463383700 18; Dec 52995325041750307 19], Dec 42258407049569971 20);
  ([Dec 67184398806084122 18; Dec 52995325041750307 19], Dec 64594690653545337 20);
  ([Dec 12229779582249850 17; Dec 52995325041750307 19], Dec 84599577088613790 20);
  ([Dec 19106187779867811 17; Dec 52995325041750307 19], Dec 10154747536258299 19);
  ([Dec 27099161117138632 17; Dec 52995325041750307 19], Dec 11482538817766002 19);
  ([Dec 35919822461037054 17; Dec 52995325041750307 19], Dec 12395329538637436 19);
  ([Dec 45249374508118129 17; Dec 52995325041750307 19], Dec 12860125027283210 19);
  ([Dec 54750625491881877 17; Dec 52995325041750307 19], Dec 12860125027283210 19);
  ([Dec 64080177538962946 17; Dec 52995325041750307 19], Dec 12395329538637436 19);
  ([Dec 72900838882861363 17; Dec 52995325041750307 19], Dec 11482538817766002 19);
  ([Dec 80893812220132189 17; Dec 52995325041750307 19], Dec 10154747536258299 19);
  ([Dec 87770220417750155 17; Dec 52995325041750307 19], Dec 84599577088613790 20);
  ([Dec 93281560119391593 17; Dec 52995325041750307 19], Dec 64594690653545337 20);
  ([Dec 97228751153661630 17; Dec 52995325041750307 19], Dec 42258407049569971 20);
  ([Dec 99470046749582497 17; Dec 52995325041750307 19], Dec 18431401302673839 20);
  ([Dec 52995325041750307 19; Dec 27712488463383700 18], Dec 42258407049569971 20);
  ([Dec 27712488463383700 18; Dec 27712488463383700 18], Dec 96887531069495155 20);
  ([Dec 67184398806084122 18; Dec 27712488463383700 18], Dec 14809881712480426 19);
  ([Dec 12229779582249850 17; Dec 27712488463383700 18], Dec 19396481613763595 19);
  ([Dec 19106187779867811 17; Dec 27712488463383700 18], Dec 23282193677296157 19);
  ([Dec 27099161117138632 17; Dec 27712488463383700 18], Dec 26326473573837867 19);
  ([Dec 35919822461037054 17; Dec 27712488463383700 18], Dec 28419265174445020 19);
  ([Dec 45249374508118129 17; Dec 27712488463383700 18], Dec 29484920282890161 19);
  ([Dec 54750625491881877 17; Dec 27712488463383700 18], Dec 29484920282890161 19);
  ([Dec 64080177538962946 17; Dec 27712488463383700 18], Dec 28419265174445020 19);
  ([Dec 72900838882861363 17; Dec 27712488463383700 18], Dec 26326473573837867 19);
  ([Dec 80893812220132189 17; Dec 27712488463383700 18], Dec 23282193677296157 19);
  ([Dec 87770220417750155 17; Dec 27712488463383700 18], Dec 19396481613763595 19);
  ([Dec 93281560119391593 17; Dec 27712488463383700 18], Dec 14809881712480426 19);
  ([Dec 97228751153661630 17; Dec 27712488463383700 18], Dec 96887531069495155 20);
  ([Dec 99470046749582497 17; Dec 27712488463383700 18], Dec 42258407049569971 20);
  ([Dec 52995325041750307 19; Dec 67184398806084122 18], Dec 64594690653545337 20);
  ([Dec 27712488463383700 18; Dec 67184398806084122 18], Dec 14809881712480426 19);
  ([Dec 67184398806084122 18; Dec 67184398806084122 18], Dec 22637855864067790 19);
  ([Dec 12229779582249850 17; Dec 67184398806084122 18], Dec 29648768542991943 19);
  ([Dec 19106187779867811 17; Dec 67184398806084122 18], Dec 35588329123640693 19);
  ([Dec 27099161117138632 17; Dec 67184398806084122 18], Dec 40241706567547917 19);
  ([Dec 35919822461037054 17; Dec 67184398806084122 18], Dec 43440673009538600 19);
  ([Dec 45249374508118129 17; Dec 67184398806084122 18], Dec 45069595320610068 19);
  ([Dec 54750625491881877 17; Dec 67184398806084122 18], Dec 45069595320610068 19);
  ([Dec 64080177538962946 17; Dec 67184398806084122 18], Dec 43440673009538600 19);
  ([Dec 72900838882861363 17; Dec 67184398806084122 18], Dec 40241706567547917 19);
  ([Dec 80893812220132189 17; Dec 67184398806084122 18], Dec 35588329123640693 19);
  ([Dec 87770220417750155 17; Dec 67184398806084122 18], Dec 29648768542991943 19);
  ([Dec 93281560119391593 17; Dec 67184398806084122 18], Dec 22637855864067790 19);
  ([Dec 97228751153661630 17; Dec 67184398806084122 18], Dec 14809881712480426 19);
  ([Dec 99470046749582497 17; Dec 67184398806084122 18], Dec 64594690653545337 20);
  ([Dec 52995325041750307 19; Dec 12229779582249850 17], Dec 84599577088613790 20);
  ([Dec 27712488463383700 18; Dec 12229779582249850 17], Dec 19396481613763595 19);
  ([Dec 67184398806084122 18; Dec 12229779582249850 17], Dec 29648768542991943 19);
  ([Dec 12229779582249850 17; Dec 12229779582249850 17], Dec 38830951190531723 19);
  ([Dec 19106187779867811 17; Dec 12229779582249850 17], Dec 46609985475410771 19);
  ([Dec 27099161117138632 17; Dec 12229779582249850 17], Dec 52704507483414828 19);
  ([Dec 35919822461037054 17; Dec 12229779582249850 17], Dec 56894189411990257 19);
  ([Dec 45249374508118129 17; Dec 12229779582249850 17], Dec 59027586711870193 19);
  ([Dec 54750625491881877 17; Dec 12229779582249850 17], Dec 59027586711870193 19);
  ([Dec 64080177538962946 17; Dec 12229779582249850 17], Dec 56894189411990257 19);
  ([Dec 72900838882861363 17; Dec 12229779582249850 17], Dec 52704507483414828 19);
  ([Dec 80893812220132189 17; Dec 12229779582249850 17], Dec 46609985475410771 19);
  ([Dec 87770220417750155 17; Dec 12229779582249850 17], Dec 38830951190531723 19);
  ([Dec 93281560119391593 17; Dec 12229779582249850 17], Dec 29648768542991943 19);
  ([Dec 97228751153661630 17; Dec 12229779582249850 17], Dec 19396481613763595 19);
  ([Dec 99470046749582497 17; Dec 12229779582249850 17], Dec 84599577088613790 20);
  ([Dec 52995325041750307 19; Dec 19106187779867811 17], Dec 10154747536258299 19);
  ([Dec 27712488463383700 18; Dec 19106187779867811 17], Dec 23282193677296157 19);
  ([Dec 67184398806084122 18; Dec 19106187779867811 17], Dec 35588329123640693 19);
  ([Dec 12229779582249850 17; Dec 19106187779867811 17], Dec 46609985475410771 19);
  ([Dec 19106187779867811 17; Dec 19106187779867811 17], Dec 55947399675023383 19);
  ([Dec 27099161117138632 17; Dec 19106187779867811 17], Dec 63262841959164616 19);
  ([Dec 35919822461037054 17; Dec 19106187779867811 17], Dec 68291846087322776 19);
  ([Dec 45249374508118129 17; Dec 19106187779867811 17], Dec 70852628507325158 19);
  ([Dec 54750625491881877 17; Dec 19106187779867811 17], Dec 70852628507325158 19);
  ([Dec 64080177538962946 17; Dec 19106187779867811 17], Dec 68291846087322776 19);
  ([Dec 72900838882861363 17; Dec 19106187779867811 17], Dec 63262841959164616 19);
  ([Dec 80893812220132189 17; Dec 19106187779867811 17], Dec 55947399675023383 19);
  ([Dec 87770220417750155 17; Dec 19106187779867811 17], Dec 46609985475410771 19);
  ([Dec 93281560119391593 17; Dec 19106187779867811 17], Dec 35588329123640693 19);
  ([Dec 97228751153661630 17; Dec 19106187779867811 17], Dec 23282193677296157 19);
  ([Dec 99470046749582497 17; Dec 19106187779867811 17], Dec 10154747536258299 19);
  ([Dec 52995325041750307 19; Dec 27099161117138632 17], Dec 11482538817766002 19);
  ([Dec 27712488463383700 18; Dec 27099161117138632 17], Dec 26326473573837867 19);
  ([Dec 67184398806084122 18; Dec 27099161117138632 17], Dec 40241706567547917 19);
  ([Dec 12229779582249850 17; Dec 27099161117138632 17], Dec 52704507483414828 19);
  ([Dec 19106187779867811 17; Dec 27099161117138632 17], Dec 63262841959164616 19);
  ([Dec 27099161117138632 17; Dec 27099161117138632 17], Dec 71534820134579674 19);
  ([Dec 35919822461037054 17; Dec 27099161117138632 17], Dec 77221395296600782 19);
  ([Dec 45249374508118129 17; Dec 27099161117138632 17], Dec 80117014654594657 19);
  ([Dec 54750625491881877 17; Dec 27099161117138632 17], Dec 80117014654594657 19);
  ([Dec 64080177538962946 17; Dec 27099161117138632 17], Dec 77221395296600782 19);
  ([Dec 72900838882861363 17; Dec 27099161117138632 17], Dec 71534820134579674 19);
  ([Dec 80893812220132189 17; Dec 27099161117138632 17], Dec 63262841959164616 19);
  ([Dec 87770220417750155 17; Dec 27099161117138632 17], Dec 52704507483414828 19);
  ([Dec 93281560119391593 17; Dec 27099161117138632 17], Dec 40241706567547917 19);
  ([Dec 97228751153661630 17; Dec 27099161117138632 17], Dec 26326473573837867 19);
  ([Dec 99470046749582497 17; Dec 27099161117138632 17], Dec 11482538817766002 19);
  ([Dec 52995325041750307 19; Dec 35919822461037054 17], Dec 12395329538637436 19);
  ([Dec 27712488463383700 18; Dec 35919822461037054 17], Dec 28419265174445020 19);
  ([Dec 67184398806084122 18; Dec 35919822461037054 17], Dec 43440673009538600 19);
  ([Dec 12229779582249850 17; Dec 35919822461037054 17], Dec 56894189411990257 19);
  ([Dec 19106187779867811 17; Dec 35919822461037054 17], Dec 68291846087322776 19);
  ([Dec 27099161117138632 17; Dec 35919822461037054 17], Dec 77221395296600782 19);
  ([Dec 35919822461037054 17; Dec 35919822461037054 17], Dec 83360017965171569 19);
  ([Dec 45249374508118129 17; Dec 35919822461037054 17], Dec 86485821128602525 19);
  ([Dec 54750625491881877 17; Dec 35919822461037054 17], Dec 86485821128602525 19);
  ([Dec 64080177538962946 17; Dec 35919822461037054 17], Dec 83360017965171569 19);
  ([Dec 72900838882861363 17; Dec 35919822461037054 17], Dec 77221395296600782 19);
  ([Dec 80893812220132189 17; Dec 35919822461037054 17], Dec 68291846087322776 19);
  ([Dec 87770220417750155 17; Dec 35919822461037054 17], Dec 56894189411990257 19);
  ([Dec 93281560119391593 17; Dec 35919822461037054 17], Dec 43440673009538600 19);
  ([Dec 97228751153661630 17; Dec 35919822461037054 17], Dec 28419265174445020 19);
  ([Dec 99470046749582497 17; Dec 35919822461037054 17], Dec 12395329538637436 19);
  ([Dec 52995325041750307 19; Dec 45249374508118129 17], Dec 12860125027283210 19);
  ([Dec 27712488463383700 18; Dec 45249374508118129 17], Dec 29484920282890161 19);
  ([Dec 67184398806084122 18; Dec 45249374508118129 17], Dec 45069595320610068 19);
  ([Dec 12229779582249850 17; Dec 45249374508118129 17], Dec 59027586711870193 19);
  ([Dec 19106187779867811 17; Dec 45249374508118129 17], Dec 70852628507325158 19);
  ([Dec 27099161117138632 17; Dec 45249374508118129 17], Dec 80117014654594657 19);
  ([Dec 35919822461037054 17; Dec 45249374508118129 17], Dec 86485821128602525 19);
  ([Dec 45249374508118129 17; Dec 45249374508118129 17], Dec 89728834504495276 19);
  ([Dec 54750625491881877 17; Dec 45249374508118129 17], Dec 89728834504495276 19);
  ([Dec 64080177538962946 17; Dec 45249374508118129 17], Dec 86485821128602525 19);
  ([Dec 72900838882861363 17; Dec 45249374508118129 17], Dec 80117014654594657 19);
  ([Dec 80893812220132189 17; Dec 45249374508118129 17], Dec 70852628507325158 19);
  ([Dec 87770220417750155 17; Dec 45249374508118129 17], Dec 59027586711870193 19);
  ([Dec 93281560119391593 17; Dec 45249374508118129 17], Dec 45069595320610068 19);
  ([Dec 97228751153661630 17; Dec 45249374508118129 17], Dec 29484920282890161 19);
  ([Dec 99470046749582497 17; Dec 45249374508118129 17], Dec 12860125027283210 19);
  ([Dec 52995325041750307 19; Dec 54750625491881877 17], Dec 12860125027283210 19);
  ([Dec 27712488463383700 18; Dec 54750625491881877 17], Dec 29484920282890161 19);
  ([Dec 67184398806084122 18; Dec 54750625491881877 17], Dec 45069595320610068 19);
  ([Dec 12229779582249850 17; Dec 54750625491881877 17], Dec 59027586711870193 19);
  ([Dec 19106187779867811 17; Dec 54750625491881877 17], Dec 70852628507325158 19);
  ([Dec 27099161117138632 17; Dec 54750625491881877 17], Dec 80117014654594657 19);
  ([Dec 35919822461037054 17; Dec 54750625491881877 17], Dec 86485821128602525 19);
  ([Dec 45249374508118129 17; Dec 54750625491881877 17], Dec 89728834504495276 19);
  ([Dec 54750625491881877 17; Dec 54750625491881877 17], Dec 89728834504495276 19);
  ([Dec 64080177538962946 17; Dec 54750625491881877 17], Dec 86485821128602525 19);
  ([Dec 72900838882861363 17; Dec 54750625491881877 17], Dec 80117014654594657 19);
  ([Dec 80893812220132189 17; Dec 54750625491881877 17], Dec 70852628507325158 19);
  ([Dec 87770220417750155 17; Dec 54750625491881877 17], Dec 59027586711870193 19);
  ([Dec 93281560119391593 17; Dec 54750625491881877 17], Dec 45069595320610068 19);
  ([Dec 97228751153661630 17; Dec 54750625491881877 17], Dec 29484920282890161 19);
  ([Dec 99470046749582497 17; Dec 54750625491881877 17], Dec 12860125027283210 19);
  ([Dec 52995325041750307 19; Dec 64080177538962946 17], Dec 12395329538637436 19);
  ([Dec 27712488463383700 18; Dec 64080177538962946 17], Dec 28419265174445020 19);
  ([Dec 67184398806084122 18; Dec 64080177538962946 17], Dec 43440673009538600 19);
  ([Dec 12229779582249850 17; Dec 64080177538962946 17], Dec 56894189411990257 19);
  ([Dec 19106187779867811 17; Dec 64080177538962946 17], Dec 68291846087322776 19);
  ([Dec 27099161117138632 17; Dec 64080177538962946 17], Dec 77221395296600782 19);
  ([Dec 35919822461037054 17; Dec 64080177538962946 17], Dec 83360017965171569 19);
  ([Dec 45249374508118129 17; Dec 64080177538962946 17], Dec 86485821128602525 19);
  ([Dec 54750625491881877 17; Dec 64080177538962946 17], Dec 86485821128602525 19);
  ([Dec 64080177538962946 17; Dec 64080177538962946 17], Dec 83360017965171569 19);
  ([Dec 72900838882861363 17; Dec 64080177538962946 17], Dec 77221395296600782 19);
  ([Dec 80893812220132189 17; Dec 64080177538962946 17], Dec 68291846087322776 19);
  ([Dec 87770220417750155 17; Dec 64080177538962946 17], Dec 56894189411990257 19);
  ([Dec 93281560119391593 17; Dec 64080177538962946 17], Dec 43440673009538600 19);
  ([Dec 97228751153661630 17; Dec 64080177538962946 17], Dec 28419265174445020 19);
  ([Dec 99470046749582497 17; Dec 64080177538962946 17], Dec 12395329538637436 19);
  ([Dec 52995325041750307 19; Dec 72900838882861363 17], Dec 11482538817766002 19);
  ([Dec 27712488463383700 18; Dec 72900838882861363 17], Dec 26326473573837867 19);
  ([Dec 67184398806084122 18; Dec 72900838882861363 17], Dec 40241706567547917 19);
  ([Dec 12229779582249850 17; Dec 72900838882861363 17], Dec 52704507483414828 19);
  ([Dec 19106187779867811 17; Dec 72900838882861363 17], Dec 63262841959164616 19);
  ([Dec 27099161117138632 17; Dec 72900838882861363 17], Dec 71534820134579674 19);
  ([Dec 35919822461037054 17; Dec 72900838882861363 17], Dec 77221395296600782 19);
  ([Dec 45249374508118129 17; Dec 72900838882861363 17], Dec 80117014654594657 19);
  ([Dec 54750625491881877 17; Dec 72900838882861363 17], Dec 80117014654594657 19);
  ([Dec 64080177538962946 17; Dec 72900838882861363 17], Dec 77221395296600782 19);
  ([Dec 72900838882861363 17; Dec 72900838882861363 17], Dec 71534820134579674 19);
  ([Dec 80893812220132189 17; Dec 72900838882861363 17], Dec 63262841959164616 19);
  ([Dec 87770220417750155 17; Dec 72900838882861363 17], Dec 52704507483414828 19);
  ([Dec 93281560119391593 17; Dec 72900838882861363 17], Dec 40241706567547917 19);
  ([Dec 97228751153661630 17; Dec 72900838882861363 17], Dec 26326473573837867 19);
  ([Dec 99470046749582497 17; Dec 72900838882861363 17], Dec 11482538817766002 19);
  ([Dec 52995325041750307 19; Dec 80893812220132189 17], Dec 10154747536258299 19);
  ([Dec 27712488463383700 18; Dec 80893812220132189 17], Dec 23282193677296157 19);
  ([Dec 67184398806084122 18; Dec 80893812220132189 17], Dec 35588329123640693 19);
  ([Dec 12229779582249850 17; Dec 80893812220132189 17], Dec 46609985475410771 19);
  ([Dec 19106187779867811 17; Dec 80893812220132189 17], Dec 55947399675023383 19);
  ([Dec 27099161117138632 17; Dec 80893812220132189 17], Dec 63262841959164616 19);
  ([Dec 35919822461037054 17; Dec 80893812220132189 17], Dec 68291846087322776 19);
  ([Dec 45249374508118129 17; Dec 80893812220132189 17], Dec 70852628507325158 19);
  ([Dec 54750625491881877 17; Dec 80893812220132189 17], Dec 70852628507325158 19);
  ([Dec 64080177538962946 17; Dec 80893812220132189 17], Dec 68291846087322776 19);
  ([Dec 72900838882861363 17; Dec 80893812220132189 17], Dec 63262841959164616 19);
  ([Dec 80893812220132189 17; Dec 80893812220132189 17], Dec 55947399675023383 19);
  ([Dec 87770220417750155 17; Dec 80893812220132189 17], Dec 46609985475410771 19);
  ([Dec 93281560119391593 17; Dec 80893812220132189 17], Dec 35588329123640693 19);
  ([Dec 97228751153661630 17; Dec 80893812220132189 17], Dec 23282193677296157 19);
  ([Dec 99470046749582497 17; Dec 80893812220132189 17], Dec 10154747536258299 19);
  ([Dec 52995325041750307 19; Dec 87770220417750155 17], Dec 84599577088613790 20);
  ([Dec 27712488463383700 18; Dec 87770220417750155 17], Dec 19396481613763595 19);
  ([Dec 67184398806084122 18; Dec 87770220417750155 17], Dec 29648768542991943 19);
  ([Dec 12229779582249850 17; Dec 87770220417750155 17], Dec 38830951190531723 19);
  ([Dec 19106187779867811 17; Dec 87770220417750155 17], Dec 46609985475410771 19);
  ([Dec 27099161117138632 17; Dec 87770220417750155 17], Dec 52704507483414828 19);
  ([Dec 35919822461037054 17; Dec 87770220417750155 17], Dec 56894189411990257 19);
  ([Dec 45249374508118129 17; Dec 87770220417750155 17], Dec 59027586711870193 19);
  ([Dec 54750625491881877 17; Dec 87770220417750155 17], Dec 59027586711870193 19);
  ([Dec 64080177538962946 17; Dec 87770220417750155 17], Dec 56894189411990257 19);
  ([Dec 72900838882861363 17; Dec 87770220417750155 17], Dec 52704507483414828 19);
  ([Dec 80893812220132189 17; Dec 87770220417750155 17], Dec 46609985475410771 19);
  ([Dec 87770220417750155 17; Dec 87770220417750155 17], Dec 38830951190531723 19);
  ([Dec 93281560119391593 17; Dec 87770220417750155 17], Dec 29648768542991943 19);
  ([Dec 97228751153661630 17; Dec 87770220417750155 17], Dec 19396481613763595 19);
  ([Dec 99470046749582497 17; Dec 87770220417750155 17], Dec 84599577088613790 20);
  ([Dec 52995325041750307 19; Dec 93281560119391593 17], Dec 64594690653545337 20);
  ([Dec 27712488463383700 18; Dec 93281560119391593 17], Dec 14809881712480426 19);
  ([Dec 67184398806084122 18; Dec 93281560119391593 17], Dec 22637855864067790 19);
  ([Dec 12229779582249850 17; Dec 93281560119391593 17], Dec 29648768542991943 19);
  ([Dec 19106187779867811 17; Dec 93281560119391593 17], Dec 35588329123640693 19);
  ([Dec 27099161117138632 17; Dec 93281560119391593 17], Dec 40241706567547917 19);
  ([Dec 35919822461037054 17; Dec 93281560119391593 17], Dec 43440673009538600 19);
  ([Dec 45249374508118129 17; Dec 93281560119391593 17], Dec 45069595320610068 19);
  ([Dec 54750625491881877 17; Dec 93281560119391593 17], Dec 45069595320610068 19);
  ([Dec 64080177538962946 17; Dec 93281560119391593 17], Dec 43440673009538600 19);
  ([Dec 72900838882861363 17; Dec 93281560119391593 17], Dec 40241706567547917 19);
  ([Dec 80893812220132189 17; Dec 93281560119391593 17], Dec 35588329123640693 19);
  ([Dec 87770220417750155 17; Dec 93281560119391593 17], Dec 29648768542991943 19);
  ([Dec 93281560119391593 17; Dec 93281560119391593 17], Dec 22637855864067790 19);
  ([Dec 97228751153661630 17; Dec 93281560119391593 17], Dec 14809881712480426 19);
  ([Dec 99470046749582497 17; Dec 93281560119391593 17], Dec 64594690653545337 20);
  ([Dec 52995325041750307 19; Dec 97228751153661630 17], Dec 42258407049569971 20);
  ([Dec 27712488463383700 18; Dec 97228751153661630 17], Dec 96887531069495155 20);
  ([Dec 67184398806084122 18; Dec 97228751153661630 17], Dec 14809881712480426 19);
  ([Dec 12229779582249850 17; Dec 97228751153661630 17], Dec 19396481613763595 19);
  ([Dec 19106187779867811 17; Dec 97228751153661630 17], Dec 23282193677296157 19);
  ([Dec 27099161117138632 17; Dec 97228751153661630 17], Dec 26326473573837867 19);
  ([Dec 35919822461037054 17; Dec 97228751153661630 17], Dec 28419265174445020 19);
  ([Dec 45249374508118129 17; Dec 97228751153661630 17], Dec 29484920282890161 19);
  ([Dec 54750625491881877 17; Dec 97228751153661630 17], Dec 29484920282890161 19);
  ([Dec 64080177538962946 17; Dec 97228751153661630 17], Dec 28419265174445020 19);
  ([Dec 72900838882861363 17; Dec 97228751153661630 17], Dec 26326473573837867 19);
  ([Dec 80893812220132189 17; Dec 97228751153661630 17], Dec 23282193677296157 19);
  ([Dec 87770220417750155 17; Dec 97228751153661630 17], Dec 19396481613763595 19);
  ([Dec 93281560119391593 17; Dec 97228751153661630 17], Dec 14809881712480426 19);
  ([Dec 97228751153661630 17; Dec 97228751153661630 17], Dec 96887531069495155 20);
  ([Dec 99470046749582497 17; Dec 97228751153661630 17], Dec 42258407049569971 20);
  ([Dec 52995325041750307 19; Dec 99470046749582497 17], Dec 18431401302673839 20);
  ([Dec 27712488463383700 18; Dec 99470046749582497 17], Dec 42258407049569971 20);
  ([Dec 67184398806084122 18; Dec 99470046749582497 17], Dec 64594690653545337 20);
  ([Dec 12229779582249850 17; Dec 99470046749582497 17], Dec 84599577088613790 20);
  ([Dec 19106187779867811 17; Dec 99470046749582497 17], Dec 10154747536258299 19);
  ([Dec 27099161117138632 17; Dec 99470046749582497 17], Dec 11482538817766002 19);
  ([Dec 35919822461037054 17; Dec 99470046749582497 17], Dec 12395329538637436 19);
  ([Dec 45249374508118129 17; Dec 99470046749582497 17], Dec 12860125027283210 19);
  ([Dec 54750625491881877 17; Dec 99470046749582497 17], Dec 12860125027283210 19);
  ([Dec 64080177538962946 17; Dec 99470046749582497 17], Dec 12395329538637436 19);
  ([Dec 72900838882861363 17; Dec 99470046749582497 17], Dec 11482538817766002 19);
  ([Dec 80893812220132189 17; Dec 99470046749582497 17], Dec 10154747536258299 19);
  ([Dec 87770220417750155 17; Dec 99470046749582497 17], Dec 84599577088613790 20);
  ([Dec 93281560119391593 17; Dec 99470046749582497 17], Dec 64594690653545337 20);
  ([Dec 97228751153661630 17; Dec 99470046749582497 17], Dec 42258407049569971 20);
  ([Dec 99470046749582497 17; Dec 99470046749582497 17], Dec 18431401302673839 20)].

(** The switch of FillPointsAndWeights; other orders throw. *)
Definition Square_Fill (order : nat) : outcome rule :=
  match order with
  | 0%nat | 1%nat => Ok Square_1
  | 2%nat | 3%nat => Ok Square_3
  | 4%nat | 5%nat => Ok Square_5
  | 6%nat | 7%nat => Ok Square_7
  | 8%nat | 9%nat => Ok Square_9
  | 10%nat | 11%nat => Ok Square_11
  | 12%nat | 13%nat => Ok Square_13
  | 14%nat | 15%nat => Ok Square_15
  | 16%nat | 17%nat => Ok Square_17
  | 18%nat | 19%nat => Ok Square_19
  | 20%nat | 21%nat => Ok Square_21
  | 22%nat | 23%nat => Ok Square_23
  | 24%nat | 25%nat => Ok Square_25
  | 26%nat | 27%nat => Ok Square_27
  | 28%nat | 29%nat => Ok Square_29
  | 30%nat | 31%nat => Ok Square_31
  | _ => Throw
  end.
