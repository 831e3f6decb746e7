(** * The tables of GeDiM/src/Quadrature/Quadrature_Gauss2D_Triangle.cpp *)
From Verif Require Import Base QuadModel.
Local Open Scope Z_scope.

(** FillPointsAndWeights, order 0: Quadrature_Gauss2D_Triangle.cpp:26-31. *)
Definition Triangle_0 : rule := Rule true [
  ([Dec 3333333333333333818 19; Dec 3333333333333333818 19], Dec 5000000000000000000 19)].

(** FillPointsAndWeights, order 1: Quadrature_Gauss2D_Triangle.cpp:34-39. *)
Definition Triangle_1 : rule := Rule true [
  ([Dec 3333333333333333818 19; Dec 3333333333333333818 19], Dec 5000000000000000000 19)].

(** FillPointsAndWeights, order 2: Quadrature_Gauss2D_Triangle.cpp:42-53. *)
Definition Triangle_2 : rule := Rule true [
  ([Dec 6666666666666666297 19; Dec 1666666666666666574 19], Dec 1666666666666666574 19);
  ([Dec 1666666666666666574 19; Dec 6666666666666666297 19], Dec 1666666666666666574 19);
  ([Dec 1666666666666666574 19; Dec 1666666666666666574 19], Dec 1666666666666666574 19)].

(** FillPointsAndWeights, order 3: Quadrature_Gauss2D_Triangle.cpp:56-70. *)
Definition Triangle_3 : rule := Rule true [
  ([Dec 1550510257216821952 19; Dec 1785587282636164341 19], Dec 1590206908719885848 19);
  ([Dec 6449489742783177659 19; Dec 7503111022260812446 20], Dec 9097930912801141523 20);
  ([Dec 1550510257216821952 19; Dec 6663902460147014262 19], Dec 1590206908719885848 19);
  ([Dec 6449489742783177659 19; Dec 2800199154990740680 19], Dec 9097930912801141523 20)].

(** FillPointsAndWeights, order 4: Quadrature_Gauss2D_Triangle.cpp:73-93. *)
Definition Triangle_4 : rule := Rule true [
  ([Dec 4459484909159648902 19; Dec 4459484909159648902 19], Dec 1116907948390057359 19);
  ([Dec 4459484909159648902 19; Dec 1081030181680702335 19], Dec 1116907948390057359 19);
  ([Dec 1081030181680702335 19; Dec 4459484909159648902 19], Dec 1116907948390057359 19);
  ([Dec 9157621350977074304 20; Dec 9157621350977074304 20], Dec 5497587182766093539 20);
  ([Dec 9157621350977074304 20; Dec 8168475729804585139 19], Dec 5497587182766093539 20);
  ([Dec 8168475729804585139 19; Dec 9157621350977074304 20], Dec 5497587182766093539 20)].

(** FillPointsAndWeights, order 5: Quadrature_Gauss2D_Triangle.cpp:96-119. *)
Definition Triangle_5 : rule := Rule true [
  ([Dec 3333333333333329818 19; Dec 3333333333333329818 19], Dec 1125000000000000028 19);
  ([Dec 4701420641051150540 19; Dec 4701420641051150540 19], Dec 6619707639425309598 20);
  ([Dec 4701420641051150540 19; Dec 5971587178976985044 20], Dec 6619707639425309598 20);
  ([Dec 5971587178976985044 20; Dec 4701420641051150540 19], Dec 6619707639425309598 20);
  ([Dec 1012865073234563290 19; Dec 1012865073234563290 19], Dec 6296959027241358364 20);
  ([Dec 1012865073234563290 19; Dec 7974269853530873142 19], Dec 6296959027241358364 20);
  ([Dec 7974269853530873142 19; Dec 1012865073234563290 19], Dec 6296959027241358364 20)].

(** FillPointsAndWeights, order 6: Quadrature_Gauss2D_Triangle.cpp:122-160. *)
Definition Triangle_6 : rule := Rule true [
  ([Dec 2492867451709104287 19; Dec 2492867451709104287 19], Dec 5839313786318968413 20);
  ([Dec 2492867451709104287 19; Dec 5014265096581791425 19], Dec 5839313786318968413 20);
  ([Dec 5014265096581791425 19; Dec 2492867451709104287 19], Dec 5839313786318968413 20);
  ([Dec 6308901449150222662 20; Dec 6308901449150222662 20], Dec 2542245318510340940 20);
  ([Dec 6308901449150222662 20; Dec 8738219710169955468 19], Dec 2542245318510340940 20);
  ([Dec 8738219710169955468 19; Dec 6308901449150222662 20], Dec 2542245318510340940 20);
  ([Dec 3103524510337843934 19; Dec 6365024991213986683 19], Dec 4142553780918678541 20);
  ([Dec 6365024991213986683 19; Dec 3103524510337843934 19], Dec 4142553780918678541 20);
  ([Dec 3103524510337843934 19; Dec 5314504984481694533 20], Dec 4142553780918678541 20);
  ([Dec 5314504984481694533 20; Dec 3103524510337843934 19], Dec 4142553780918678541 20);
  ([Dec 6365024991213986683 19; Dec 5314504984481694533 20], Dec 4142553780918678541 20);
  ([Dec 5314504984481694533 20; Dec 6365024991213986683 19], Dec 4142553780918678541 20)].

(** FillPointsAndWeights, order 7: Quadrature_Gauss2D_Triangle.cpp:163-201. *)
Definition Triangle_7 : rule := Rule true [
  ([Dec 6238226509440211731 20; Dec 6751786707391609077 20], Dec 2651702815743624958 20);
  ([Dec 8700998678316818058 19; Dec 6238226509440211731 20], Dec 2651702815743624958 20);
  ([Dec 6751786707391609077 20; Dec 8700998678316818058 19], Dec 2651702815743624958 20);
  ([Dec 5522545665692660949 20; Dec 3215024938519818187 19], Dec 4388140871444605462 20);
  ([Dec 6232720494910916065 19; Dec 5522545665692660949 20], Dec 4388140871444605462 20);
  ([Dec 3215024938519818187 19; Dec 6232720494910916065 19], Dec 4388140871444605462 20);
  ([Dec 3432430294509714735 20; Dec 6609491961867356435 19], Dec 2877504278498158388 20);
  ([Dec 3047265008681672160 19; Dec 3432430294509714735 20], Dec 2877504278498158388 20);
  ([Dec 6609491961867356435 19; Dec 3047265008681672160 19], Dec 2877504278498158388 20);
  ([Dec 5158423343535917249 19; Dec 2777161669763917873 19], Dec 6749318700980277974 20);
  ([Dec 2064414986700164878 19; Dec 5158423343535917249 19], Dec 6749318700980277974 20);
  ([Dec 2777161669763917873 19; Dec 2064414986700164878 19], Dec 6749318700980277974 20)].

(** FillPointsAndWeights, order 8: Quadrature_Gauss2D_Triangle.cpp:204-254. *)
Definition Triangle_8 : rule := Rule true [
  ([Dec 3333333333333329818 19; Dec 3333333333333329818 19], Dec 7215780383889358607 20);
  ([Dec 4592925882927231807 19; Dec 4592925882927231807 19], Dec 4754581713364230966 20);
  ([Dec 4592925882927231807 19; Dec 8141482341455369420 20], Dec 4754581713364230966 20);
  ([Dec 8141482341455369420 20; Dec 4592925882927231807 19], Dec 4754581713364230966 20);
  ([Dec 1705693077517602130 19; Dec 1705693077517602130 19], Dec 5160868526735912232 20);
  ([Dec 1705693077517602130 19; Dec 6588613844964795740 19], Dec 5160868526735912232 20);
  ([Dec 6588613844964795740 19; Dec 1705693077517602130 19], Dec 5160868526735912232 20);
  ([Dec 5054722831703097746 20; Dec 5054722831703097746 20], Dec 1622924881159903965 20);
  ([Dec 5054722831703097746 20; Dec 8989055433659380867 19], Dec 1622924881159903965 20);
  ([Dec 8989055433659380867 19; Dec 5054722831703097746 20], Dec 1622924881159903965 20);
  ([Dec 2631128296346381124 19; Dec 7284923929554042443 19], Dec 1361515708721749637 20);
  ([Dec 7284923929554042443 19; Dec 2631128296346381124 19], Dec 1361515708721749637 20);
  ([Dec 2631128296346381124 19; Dec 8394777409957605158 21], Dec 1361515708721749637 20);
  ([Dec 8394777409957605158 21; Dec 2631128296346381124 19], Dec 1361515708721749637 20);
  ([Dec 7284923929554042443 19; Dec 8394777409957605158 21], Dec 1361515708721749637 20);
  ([Dec 8394777409957605158 21; Dec 7284923929554042443 19], Dec 1361515708721749637 20)].

(** FillPointsAndWeights, order 9: Quadrature_Gauss2D_Triangle.cpp:257-316. *)
Definition Triangle_9 : rule := Rule true [
  ([Dec 3333333333333329818 19; Dec 3333333333333329818 19], Dec 4856789814139941819 20);
  ([Dec 4896825191987376202 19; Dec 4896825191987376202 19], Dec 1566735011356953575 20);
  ([Dec 4896825191987376202 19; Dec 2063496160252474565 20], Dec 1566735011356953575 20);
  ([Dec 2063496160252474565 20; Dec 4896825191987376202 19], Dec 1566735011356953575 20);
  ([Dec 4472951339445271207 20; Dec 4472951339445271207 20], Dec 1278883782934901563 20);
  ([Dec 4472951339445271207 20; Dec 9105409732110946175 19], Dec 1278883782934901563 20);
  ([Dec 9105409732110946175 19; Dec 4472951339445271207 20], Dec 1278883782934901563 20);
  ([Dec 4370895914929366355 19; Dec 4370895914929366355 19], Dec 3891377050238713914 20);
  ([Dec 4370895914929366355 19; Dec 1258208170141267290 19], Dec 3891377050238713914 20);
  ([Dec 1258208170141267290 19; Dec 4370895914929366355 19], Dec 3891377050238713914 20);
  ([Dec 1882035356190327191 19; Dec 1882035356190327191 19], Dec 3982386946360512436 20);
  ([Dec 1882035356190327191 19; Dec 6235929287619345063 19], Dec 3982386946360512436 20);
  ([Dec 6235929287619345063 19; Dec 1882035356190327191 19], Dec 3982386946360512436 20);
  ([Dec 2219629891607657057 19; Dec 7411985987844980084 19], Dec 2164176968864468809 20);
  ([Dec 7411985987844980084 19; Dec 2219629891607657057 19], Dec 2164176968864468809 20);
  ([Dec 2219629891607657057 19; Dec 3683841205473628588 20], Dec 2164176968864468809 20);
  ([Dec 3683841205473628588 20; Dec 2219629891607657057 19], Dec 2164176968864468809 20);
  ([Dec 7411985987844980084 19; Dec 3683841205473628588 20], Dec 2164176968864468809 20);
  ([Dec 3683841205473628588 20; Dec 7411985987844980084 19], Dec 2164176968864468809 20)].

(** FillPointsAndWeights, order 10: Quadrature_Gauss2D_Triangle.cpp:319-396. *)
Definition Triangle_10 : rule := Rule true [
  ([Dec 3333333333333329818 19; Dec 3333333333333329818 19], Dec 4540899519137679002 20);
  ([Dec 4855776333836573921 19; Dec 4855776333836573921 19], Dec 1836297887823335265 20);
  ([Dec 4855776333836573921 19; Dec 2884473323268524694 20], Dec 1836297887823335265 20);
  ([Dec 2884473323268524694 20; Dec 4855776333836573921 19], Dec 1836297887823335265 20);
  ([Dec 1094815754850370498 19; Dec 1094815754850370498 19], Dec 2266052971776396849 20);
  ([Dec 1094815754850370498 19; Dec 7810368490299258726 19], Dec 2266052971776396849 20);
  ([Dec 7810368490299258726 19; Dec 1094815754850370498 19], Dec 2266052971776396849 20);
  ([Dec 3079398387641209545 19; Dec 5503529418209991420 19], Dec 3637895842271005736 20);
  ([Dec 5503529418209991420 19; Dec 3079398387641209545 19], Dec 3637895842271005736 20);
  ([Dec 3079398387641209545 19; Dec 1417072194148799591 19], Dec 3637895842271005736 20);
  ([Dec 1417072194148799591 19; Dec 3079398387641209545 19], Dec 3637895842271005736 20);
  ([Dec 5503529418209991420 19; Dec 1417072194148799591 19], Dec 3637895842271005736 20);
  ([Dec 1417072194148799591 19; Dec 5503529418209991420 19], Dec 3637895842271005736 20);
  ([Dec 2466725606399026993 19; Dec 7283239045974109205 19], Dec 1416362126552874259 20);
  ([Dec 7283239045974109205 19; Dec 2466725606399026993 19], Dec 1416362126552874259 20);
  ([Dec 2466725606399026993 19; Dec 2500353476268638714 20], Dec 1416362126552874259 20);
  ([Dec 2500353476268638714 20; Dec 2466725606399026993 19], Dec 1416362126552874259 20);
  ([Dec 7283239045974109205 19; Dec 2500353476268638714 20], Dec 1416362126552874259 20);
  ([Dec 2500353476268638714 20; Dec 7283239045974109205 19], Dec 1416362126552874259 20);
  ([Dec 6680325101220026263 20; Dec 9236559335875003107 19], Dec 4710833481866411564 21);
  ([Dec 9236559335875003107 19; Dec 6680325101220026263 20], Dec 4710833481866411564 21);
  ([Dec 6680325101220026263 20; Dec 9540815400299457877 21], Dec 4710833481866411564 21);
  ([Dec 9540815400299457877 21; Dec 6680325101220026263 20], Dec 4710833481866411564 21);
  ([Dec 9236559335875003107 19; Dec 9540815400299457877 21], Dec 4710833481866411564 21);
  ([Dec 9540815400299457877 21; Dec 9236559335875003107 19], Dec 4710833481866411564 21)].

(** FillPointsAndWeights, order 11: Quadrature_Gauss2D_Triangle.cpp:399-491. *)
Definition Triangle_11 : rule := Rule true [
  ([Dec 3935507962994796993 19; Dec 3935507962994796993 19], Dec 3608902119860463859 20);
  ([Dec 3935507962994796993 19; Dec 2128984074010406013 19], Dec 3608902119860463859 20);
  ([Dec 2128984074010406013 19; Dec 3935507962994796993 19], Dec 3608902119860463859 20);
  ([Dec 4797906580889744754 19; Dec 4797906580889744754 19], Dec 2160771780768042105 20);
  ([Dec 4797906580889744754 19; Dec 4041868382205102833 20], Dec 2160771780768042105 20);
  ([Dec 4041868382205102833 20; Dec 4797906580889744754 19], Dec 2160771780768042105 20);
  ([Dec 5100344564582806432 21; Dec 5681715578857244459 20], Dec 3114452429392797986 21);
  ([Dec 5681715578857244459 20; Dec 5100344564582806432 21], Dec 3114452429392797986 21);
  ([Dec 5100344564582806432 21; Dec 9380824996468447585 19], Dec 3114452429392797986 21);
  ([Dec 9380824996468447585 19; Dec 5100344564582806432 21], Dec 3114452429392797986 21);
  ([Dec 5681715578857244459 20; Dec 9380824996468447585 19], Dec 3114452429392797986 21);
  ([Dec 9380824996468447585 19; Dec 5681715578857244459 20], Dec 3114452429392797986 21);
  ([Dec 2659762019033015679 19; Dec 1253995635366208783 19], Dec 2908685516108151098 20);
  ([Dec 1253995635366208783 19; Dec 2659762019033015679 19], Dec 2908685516108151098 20);
  ([Dec 2659762019033015679 19; Dec 6086242345600775261 19], Dec 2908685516108151098 20);
  ([Dec 6086242345600775261 19; Dec 2659762019033015679 19], Dec 2908685516108151098 20);
  ([Dec 1253995635366208783 19; Dec 6086242345600775261 19], Dec 2908685516108151098 20);
  ([Dec 6086242345600775261 19; Dec 1253995635366208783 19], Dec 2908685516108151098 20);
  ([Dec 2853641853869646194 19; Dec 1240997015369853240 20], Dec 8487924161491701078 21);
  ([Dec 1240997015369853240 20; Dec 2853641853869646194 19], Dec 8487924161491701078 21);
  ([Dec 2853641853869646194 19; Dec 7022258444593368898 19], Dec 8487924161491701078 21);
  ([Dec 7022258444593368898 19; Dec 2853641853869646194 19], Dec 8487924161491701078 21);
  ([Dec 1240997015369853240 20; Dec 7022258444593368898 19], Dec 8487924161491701078 21);
  ([Dec 7022258444593368898 19; Dec 1240997015369853240 20], Dec 8487924161491701078 21);
  ([Dec 1372353674781708610 19; Dec 5279205798821771239 20], Dec 1379573207822479622 20);
  ([Dec 5279205798821771239 20; Dec 1372353674781708610 19], Dec 1379573207822479622 20);
  ([Dec 1372353674781708610 19; Dec 8099725745336114890 19], Dec 1379573207822479622 20);
  ([Dec 8099725745336114890 19; Dec 1372353674781708610 19], Dec 1379573207822479622 20);
  ([Dec 5279205798821771239 20; Dec 8099725745336114890 19], Dec 1379573207822479622 20);
  ([Dec 8099725745336114890 19; Dec 5279205798821771239 20], Dec 1379573207822479622 20)].

(** FillPointsAndWeights, order 12: Quadrature_Gauss2D_Triangle.cpp:494-595. *)
Definition Triangle_12 : rule := Rule true [
  ([Dec 2131735045321037081 20; Dec 2131735045321037081 20], Dec 3083130525779508805 21);
  ([Dec 2131735045321037081 20; Dec 9573652990935792584 19], Dec 3083130525779508805 21);
  ([Dec 9573652990935792584 19; Dec 2131735045321037081 20], Dec 3083130525779508805 21);
  ([Dec 2712103850121159176 19; Dec 2712103850121159176 19], Dec 3142911210894255153 20);
  ([Dec 2712103850121159176 19; Dec 4575792299757681647 19], Dec 3142911210894255153 20);
  ([Dec 4575792299757681647 19; Dec 2712103850121159176 19], Dec 3142911210894255153 20);
  ([Dec 1275761455415859169 19; Dec 1275761455415859169 19], Dec 1739805646535447226 20);
  ([Dec 1275761455415859169 19; Dec 7448477089168281662 19], Dec 1739805646535447226 20);
  ([Dec 7448477089168281662 19; Dec 1275761455415859169 19], Dec 1739805646535447226 20);
  ([Dec 4397243922944602534 19; Dec 4397243922944602534 19], Dec 2184627226901920266 20);
  ([Dec 4397243922944602534 19; Dec 1205512154110794515 19], Dec 2184627226901920266 20);
  ([Dec 1205512154110794515 19; Dec 4397243922944602534 19], Dec 2184627226901920266 20);
  ([Dec 4882173897738048551 19; Dec 4882173897738048551 19], Dec 1286553322022766788 20);
  ([Dec 4882173897738048551 19; Dec 2356522045239023422 20], Dec 1286553322022766788 20);
  ([Dec 2356522045239023422 20; Dec 4882173897738048551 19], Dec 1286553322022766788 20);
  ([Dec 2813255809899395388 19; Dec 6958360867878033984 19], Dec 1117838660115172238 20);
  ([Dec 6958360867878033984 19; Dec 2813255809899395388 19], Dec 1117838660115172238 20);
  ([Dec 2813255809899395388 19; Dec 2283833222225702814 20], Dec 1117838660115172238 20);
  ([Dec 2283833222225702814 20; Dec 2813255809899395388 19], Dec 1117838660115172238 20);
  ([Dec 6958360867878033984 19; Dec 2283833222225702814 20], Dec 1117838660115172238 20);
  ([Dec 2283833222225702814 20; Dec 6958360867878033984 19], Dec 1117838660115172238 20);
  ([Dec 1162519159075971475 19; Dec 8580140335440726851 19], Dec 8658115554329446142 21);
  ([Dec 8580140335440726851 19; Dec 1162519159075971475 19], Dec 8658115554329446142 21);
  ([Dec 1162519159075971475 19; Dec 2573405054833022981 20], Dec 8658115554329446142 21);
  ([Dec 2573405054833022981 20; Dec 1162519159075971475 19], Dec 8658115554329446142 21);
  ([Dec 8580140335440726851 19; Dec 2573405054833022981 20], Dec 8658115554329446142 21);
  ([Dec 2573405054833022981 20; Dec 8580140335440726851 19], Dec 8658115554329446142 21);
  ([Dec 2757132696855141840 19; Dec 6089432357797878170 19], Dec 2018577888319046318 20);
  ([Dec 6089432357797878170 19; Dec 2757132696855141840 19], Dec 2018577888319046318 20);
  ([Dec 2757132696855141840 19; Dec 1153434945346979990 19], Dec 2018577888319046318 20);
  ([Dec 1153434945346979990 19; Dec 2757132696855141840 19], Dec 2018577888319046318 20);
  ([Dec 6089432357797878170 19; Dec 1153434945346979990 19], Dec 2018577888319046318 20);
  ([Dec 1153434945346979990 19; Dec 6089432357797878170 19], Dec 2018577888319046318 20)].

(** FillPointsAndWeights, order 13: Quadrature_Gauss2D_Triangle.cpp:598-711. *)
Definition Triangle_13 : rule := Rule true [
  ([Dec 3333333333333329818 19; Dec 3333333333333329818 19], Dec 3398001829341582014 20);
  ([Dec 4269414142598004225 19; Dec 4269414142598004225 19], Dec 2780098376522666462 20);
  ([Dec 4269414142598004225 19; Dec 1461171714803991828 19], Dec 2780098376522666462 20);
  ([Dec 1461171714803991828 19; Dec 4269414142598004225 19], Dec 2780098376522666462 20);
  ([Dec 2213722862918328926 19; Dec 2213722862918328926 19], Dec 2913924255959999057 20);
  ([Dec 2213722862918328926 19; Dec 5572554274163341592 19], Dec 2913924255959999057 20);
  ([Dec 5572554274163341592 19; Dec 2213722862918328926 19], Dec 2913924255959999057 20);
  ([Dec 2150968110884318371 20; Dec 2150968110884318371 20], Dec 3026168551769585838 21);
  ([Dec 2150968110884318371 20; Dec 9569806377823136812 19], Dec 3026168551769585838 21);
  ([Dec 9569806377823136812 19; Dec 2150968110884318371 20], Dec 3026168551769585838 21);
  ([Dec 4890769464525393517 19; Dec 4890769464525393517 19], Dec 1199720096444736525 20);
  ([Dec 4890769464525393517 19; Dec 2184610709492130001 20], Dec 1199720096444736525 20);
  ([Dec 2184610709492130001 20; Dec 4890769464525393517 19], Dec 1199720096444736525 20);
  ([Dec 3084417608921177778 19; Dec 6235459955536756249 19], Dec 1732063807042418663 20);
  ([Dec 6235459955536756249 19; Dec 3084417608921177778 19], Dec 1732063807042418663 20);
  ([Dec 3084417608921177778 19; Dec 6801224355420665280 20], Dec 1732063807042418663 20);
  ([Dec 6801224355420665280 20; Dec 3084417608921177778 19], Dec 1732063807042418663 20);
  ([Dec 6235459955536756249 19; Dec 6801224355420665280 20], Dec 1732063807042418663 20);
  ([Dec 6801224355420665280 20; Dec 6235459955536756249 19], Dec 1732063807042418663 20);
  ([Dec 1109220428034633915 19; Dec 8647077702954427680 19], Dec 7482700552582833772 21);
  ([Dec 8647077702954427680 19; Dec 1109220428034633915 19], Dec 7482700552582833772 21);
  ([Dec 1109220428034633915 19; Dec 2437018690109383004 20], Dec 7482700552582833772 21);
  ([Dec 2437018690109383004 20; Dec 1109220428034633915 19], Dec 7482700552582833772 21);
  ([Dec 8647077702954427680 19; Dec 2437018690109383004 20], Dec 7482700552582833772 21);
  ([Dec 2437018690109383004 20; Dec 8647077702954427680 19], Dec 7482700552582833772 21);
  ([Dec 1635974010678504786 19; Dec 7485071158999522245 19], Dec 1208951990579690966 20);
  ([Dec 7485071158999522245 19; Dec 1635974010678504786 19], Dec 1208951990579690966 20);
  ([Dec 1635974010678504786 19; Dec 8789548303219732461 20], Dec 1208951990579690966 20);
  ([Dec 8789548303219732461 20; Dec 1635974010678504786 19], Dec 1208951990579690966 20);
  ([Dec 7485071158999522245 19; Dec 8789548303219732461 20], Dec 1208951990579690966 20);
  ([Dec 8789548303219732461 20; Dec 7485071158999522245 19], Dec 1208951990579690966 20);
  ([Dec 2725158177734296472 19; Dec 7223577931241880190 19], Dec 4795340501771631556 21);
  ([Dec 7223577931241880190 19; Dec 2725158177734296472 19], Dec 4795340501771631556 21);
  ([Dec 2725158177734296472 19; Dec 5126389102382368501 21], Dec 4795340501771631556 21);
  ([Dec 5126389102382368501 21; Dec 2725158177734296472 19], Dec 4795340501771631556 21);
  ([Dec 7223577931241880190 19; Dec 5126389102382368501 21], Dec 4795340501771631556 21);
  ([Dec 5126389102382368501 21; Dec 7223577931241880190 19], Dec 4795340501771631556 21)].

(** FillPointsAndWeights, order 14: Quadrature_Gauss2D_Triangle.cpp:714-842. *)
Definition Triangle_14 : rule := Rule true [
  ([Dec 4889639103621786220 19; Dec 4889639103621786220 19], Dec 1094179068471444471 20);
  ([Dec 4889639103621786220 19; Dec 2207217927564272125 20], Dec 1094179068471444471 20);
  ([Dec 2207217927564272125 20; Dec 4889639103621786220 19], Dec 1094179068471444471 20);
  ([Dec 4176447193404539404 19; Dec 4176447193404539404 19], Dec 1639417677206267410 20);
  ([Dec 4176447193404539404 19; Dec 1647105613190921469 19], Dec 1639417677206267410 20);
  ([Dec 1647105613190921469 19; Dec 4176447193404539404 19], Dec 1639417677206267410 20);
  ([Dec 2734775283088386466 19; Dec 2734775283088386466 19], Dec 2588705225364579254 20);
  ([Dec 2734775283088386466 19; Dec 4530449433823227068 19], Dec 2588705225364579254 20);
  ([Dec 4530449433823227068 19; Dec 2734775283088386466 19], Dec 2588705225364579254 20);
  ([Dec 1772055324125434428 19; Dec 1772055324125434428 19], Dec 2108129436849650803 20);
  ([Dec 1772055324125434428 19; Dec 6455889351749131144 19], Dec 2108129436849650803 20);
  ([Dec 6455889351749131144 19; Dec 1772055324125434428 19], Dec 2108129436849650803 20);
  ([Dec 6179988309087260101 20; Dec 6179988309087260101 20], Dec 7216849834888333821 21);
  ([Dec 6179988309087260101 20; Dec 8764002338182548257 19], Dec 7216849834888333821 21);
  ([Dec 8764002338182548257 19; Dec 6179988309087260101 20], Dec 7216849834888333821 21);
  ([Dec 1939096124870104756 20; Dec 1939096124870104756 20], Dec 2461701801200040941 21);
  ([Dec 1939096124870104756 20; Dec 9612180775025979118 19], Dec 2461701801200040941 21);
  ([Dec 9612180775025979118 19; Dec 1939096124870104756 20], Dec 2461701801200040941 21);
  ([Dec 1722666878213555686 19; Dec 7706085547749964570 19], Dec 1233287660628183680 20);
  ([Dec 7706085547749964570 19; Dec 1722666878213555686 19], Dec 1233287660628183680 20);
  ([Dec 1722666878213555686 19; Dec 5712475740364793969 20], Dec 1233287660628183680 20);
  ([Dec 5712475740364793969 20; Dec 1722666878213555686 19], Dec 1233287660628183680 20);
  ([Dec 7706085547749964570 19; Dec 5712475740364793969 20], Dec 1233287660628183680 20);
  ([Dec 5712475740364793969 20; Dec 7706085547749964570 19], Dec 1233287660628183680 20);
  ([Dec 3368614597963450197 19; Dec 5702222908466831885 19], Dec 1928575539353034191 20);
  ([Dec 5702222908466831885 19; Dec 3368614597963450197 19], Dec 1928575539353034191 20);
  ([Dec 3368614597963450197 19; Dec 9291624935697181953 20], Dec 1928575539353034191 20);
  ([Dec 9291624935697181953 20; Dec 3368614597963450197 19], Dec 1928575539353034191 20);
  ([Dec 5702222908466831885 19; Dec 9291624935697181953 20], Dec 1928575539353034191 20);
  ([Dec 9291624935697181953 20; Dec 5702222908466831885 19], Dec 1928575539353034191 20);
  ([Dec 2983728821362577333 19; Dec 6869801678080877938 19], Dec 7218154056766920221 21);
  ([Dec 6869801678080877938 19; Dec 2983728821362577333 19], Dec 7218154056766920221 21);
  ([Dec 2983728821362577333 19; Dec 1464695005565441049 20], Dec 7218154056766920221 21);
  ([Dec 1464695005565441049 20; Dec 2983728821362577333 19], Dec 7218154056766920221 21);
  ([Dec 6869801678080877938 19; Dec 1464695005565441049 20], Dec 7218154056766920221 21);
  ([Dec 1464695005565441049 20; Dec 6869801678080877938 19], Dec 7218154056766920221 21);
  ([Dec 1189744976969568518 19; Dec 8797571713701711760 19], Dec 2505114419250335962 21);
  ([Dec 8797571713701711760 19; Dec 1189744976969568518 19], Dec 2505114419250335962 21);
  ([Dec 1189744976969568518 19; Dec 1268330932872025092 21], Dec 2505114419250335962 21);
  ([Dec 1268330932872025092 21; Dec 1189744976969568518 19], Dec 2505114419250335962 21);
  ([Dec 8797571713701711760 19; Dec 1268330932872025092 21], Dec 2505114419250335962 21);
  ([Dec 1268330932872025092 21; Dec 8797571713701711760 19], Dec 2505114419250335962 21)].

(** FillPointsAndWeights, order 15: Quadrature_Gauss2D_Triangle.cpp:845-994. *)
Definition Triangle_15 : rule := Rule true [
  ([Dec 3333333333333329818 19; Dec 3333333333333329818 19], Dec 2477738074303557914 20);
  ([Dec 7903101365554163205 20; Dec 7903101365554163205 20], Dec 9243394302330773526 21);
  ([Dec 7903101365554163205 20; Dec 8419379726889166804 19], Dec 9243394302330773526 21);
  ([Dec 8419379726889166804 19; Dec 7903101365554163205 20], Dec 9243394302330773526 21);
  ([Dec 1878950181077007620 20; Dec 1878950181077007620 20], Dec 2248576896217540245 21);
  ([Dec 1878950181077007620 20; Dec 9624209963784597921 19], Dec 2248576896217540245 21);
  ([Dec 9624209963784597921 19; Dec 1878950181077007620 20], Dec 2248576896217540245 21);
  ([Dec 4925016882324966816 19; Dec 4925016882324966816 19], Dec 6705258190006414647 21);
  ([Dec 4925016882324966816 19; Dec 1499662353500658997 20], Dec 6705258190006414647 21);
  ([Dec 1499662353500658997 20; Dec 4925016882324966816 19], Dec 6705258190006414647 21);
  ([Dec 4088631690774410798 19; Dec 4088631690774410798 19], Dec 1901138172693057904 20);
  ([Dec 4088631690774410798 19; Dec 1822736618451178681 19], Dec 1901138172693057904 20);
  ([Dec 1822736618451178681 19; Dec 4088631690774410798 19], Dec 1901138172693057904 20);
  ([Dec 5387785106422013914 19; Dec 1941262036877463015 19], Dec 1460544538747188953 20);
  ([Dec 1941262036877463015 19; Dec 5387785106422013914 19], Dec 1460544538747188953 20);
  ([Dec 5387785106422013914 19; Dec 2670952856700522515 19], Dec 1460544538747188953 20);
  ([Dec 2670952856700522515 19; Dec 5387785106422013914 19], Dec 1460544538747188953 20);
  ([Dec 1941262036877463015 19; Dec 2670952856700522515 19], Dec 1460544538747188953 20);
  ([Dec 2670952856700522515 19; Dec 1941262036877463015 19], Dec 1460544538747188953 20);
  ([Dec 2025054980482999811 19; Dec 9876591135571211044 20], Dec 1508732257277313298 20);
  ([Dec 9876591135571211044 20; Dec 2025054980482999811 19], Dec 1508732257277313298 20);
  ([Dec 2025054980482999811 19; Dec 6987285905959879084 19], Dec 1508732257277313298 20);
  ([Dec 6987285905959879084 19; Dec 2025054980482999811 19], Dec 1508732257277313298 20);
  ([Dec 9876591135571211044 20; Dec 6987285905959879084 19], Dec 1508732257277313298 20);
  ([Dec 6987285905959879084 19; Dec 9876591135571211044 20], Dec 1508732257277313298 20);
  ([Dec 5534967491871164436 19; Dec 7766376706430816457 20], Dec 1563021378007880408 20);
  ([Dec 7766376706430816457 20; Dec 5534967491871164436 19], Dec 1563021378007880408 20);
  ([Dec 5534967491871164436 19; Dec 3688394837485753919 19], Dec 1563021378007880408 20);
  ([Dec 3688394837485753919 19; Dec 5534967491871164436 19], Dec 1563021378007880408 20);
  ([Dec 7766376706430816457 20; Dec 3688394837485753919 19], Dec 1563021378007880408 20);
  ([Dec 3688394837485753919 19; Dec 7766376706430816457 20], Dec 1563021378007880408 20);
  ([Dec 7834502256732081005 19; Dec 2159462843398025911 20], Dec 6180808608577820391 21);
  ([Dec 2159462843398025911 20; Dec 7834502256732081005 19], Dec 6180808608577820391 21);
  ([Dec 7834502256732081005 19; Dec 1949551458928116265 19], Dec 6180808608577820391 21);
  ([Dec 1949551458928116265 19; Dec 7834502256732081005 19], Dec 6180808608577820391 21);
  ([Dec 2159462843398025911 20; Dec 1949551458928116265 19], Dec 6180808608577820391 21);
  ([Dec 1949551458928116265 19; Dec 2159462843398025911 20], Dec 6180808608577820391 21);
  ([Dec 8951462452879488385 19; Dec 1256359628778499701 20], Dec 3220936645259466283 21);
  ([Dec 1256359628778499701 20; Dec 8951462452879488385 19], Dec 3220936645259466283 21);
  ([Dec 8951462452879488385 19; Dec 9229015842426617489 20], Dec 3220936645259466283 21);
  ([Dec 9229015842426617489 20; Dec 8951462452879488385 19], Dec 3220936645259466283 21);
  ([Dec 1256359628778499701 20; Dec 9229015842426617489 20], Dec 3220936645259466283 21);
  ([Dec 9229015842426617489 20; Dec 1256359628778499701 20], Dec 3220936645259466283 21);
  ([Dec 3251574524111078279 19; Dec 1508265487092278444 20], Dec 5874737324256969900 21);
  ([Dec 1508265487092278444 20; Dec 3251574524111078279 19], Dec 5874737324256969900 21);
  ([Dec 3251574524111078279 19; Dec 6597598927179694206 19], Dec 5874737324256969900 21);
  ([Dec 6597598927179694206 19; Dec 3251574524111078279 19], Dec 5874737324256969900 21);
  ([Dec 1508265487092278444 20; Dec 6597598927179694206 19], Dec 5874737324256969900 21);
  ([Dec 6597598927179694206 19; Dec 1508265487092278444 20], Dec 5874737324256969900 21)].

(** FillPointsAndWeights, order 16: Quadrature_Gauss2D_Triangle.cpp:997-1164. *)
Definition Triangle_16 : rule := Rule true [
  ([Dec 3333333333333329818 19; Dec 3333333333333329818 19], Dec 2266808250591008725 20);
  ([Dec 8540253940793320064 20; Dec 8540253940793320064 20], Dec 8404306071481858903 21);
  ([Dec 8540253940793320064 20; Dec 8291949211841336265 19], Dec 8404306071481858903 21);
  ([Dec 8291949211841336265 19; Dec 8540253940793320064 20], Dec 8404306071481858903 21);
  ([Dec 1242557200144409242 20; Dec 1242557200144409242 20], Dec 1085094963404974709 21);
  ([Dec 1242557200144409242 20; Dec 9751488559971117631 19], Dec 1085094963404974709 21);
  ([Dec 9751488559971117631 19; Dec 1242557200144409242 20], Dec 1085094963404974709 21);
  ([Dec 4917483834189159131 19; Dec 4917483834189159131 19], Dec 7225277337542364287 21);
  ([Dec 4917483834189159131 19; Dec 1650323316216811831 20], Dec 7225277337542364287 21);
  ([Dec 1650323316216811831 20; Dec 4917483834189159131 19], Dec 7225277337542364287 21);
  ([Dec 4566942669538746613 19; Dec 4566942669538746613 19], Dec 1299771522733836684 20);
  ([Dec 4566942669538746613 19; Dec 8661146609225071902 20], Dec 1299771522733836684 20);
  ([Dec 8661146609225071902 20; Dec 4566942669538746613 19], Dec 1299771522733836684 20);
  ([Dec 4850675988044743647 19; Dec 3231591284863438718 19], Dec 2005446661667771580 20);
  ([Dec 3231591284863438718 19; Dec 4850675988044743647 19], Dec 2005446661667771580 20);
  ([Dec 4850675988044743647 19; Dec 1917732727091817635 19], Dec 2005446661667771580 20);
  ([Dec 1917732727091817635 19; Dec 4850675988044743647 19], Dec 2005446661667771580 20);
  ([Dec 3231591284863438718 19; Dec 1917732727091817635 19], Dec 2005446661667771580 20);
  ([Dec 1917732727091817635 19; Dec 3231591284863438718 19], Dec 2005446661667771580 20);
  ([Dec 2062209927866420489 19; Dec 1534155367941468784 19], Dec 9729984160041700927 21);
  ([Dec 1534155367941468784 19; Dec 2062209927866420489 19], Dec 9729984160041700927 21);
  ([Dec 2062209927866420489 19; Dec 6403634704192110449 19], Dec 9729984160041700927 21);
  ([Dec 6403634704192110449 19; Dec 2062209927866420489 19], Dec 9729984160041700927 21);
  ([Dec 1534155367941468784 19; Dec 6403634704192110449 19], Dec 9729984160041700927 21);
  ([Dec 6403634704192110449 19; Dec 1534155367941468784 19], Dec 9729984160041700927 21);
  ([Dec 3237495027003909343 19; Dec 7429547899133068234 20], Dec 1165197443829810338 20);
  ([Dec 7429547899133068234 20; Dec 3237495027003909343 19], Dec 1165197443829810338 20);
  ([Dec 3237495027003909343 19; Dec 6019550183082783557 19], Dec 1165197443829810338 20);
  ([Dec 6019550183082783557 19; Dec 3237495027003909343 19], Dec 1165197443829810338 20);
  ([Dec 7429547899133068234 20; Dec 6019550183082783557 19], Dec 1165197443829810338 20);
  ([Dec 6019550183082783557 19; Dec 7429547899133068234 20], Dec 1165197443829810338 20);
  ([Dec 7383433055660658662 19; Dec 7127876283214786002 20], Dec 9129118555048445008 21);
  ([Dec 7127876283214786002 20; Dec 7383433055660658662 19], Dec 9129118555048445008 21);
  ([Dec 7383433055660658662 19; Dec 1903779316017862877 19], Dec 9129118555048445008 21);
  ([Dec 1903779316017862877 19; Dec 7383433055660658662 19], Dec 9129118555048445008 21);
  ([Dec 7127876283214786002 20; Dec 1903779316017862877 19], Dec 9129118555048445008 21);
  ([Dec 1903779316017862877 19; Dec 7127876283214786002 20], Dec 9129118555048445008 21);
  ([Dec 9121067306168079147 19; Dec 1662322322370579294 20], Dec 3556861404094714858 21);
  ([Dec 1662322322370579294 20; Dec 9121067306168079147 19], Dec 3556861404094714858 21);
  ([Dec 9121067306168079147 19; Dec 7127004615948627497 20], Dec 3556861404094714858 21);
  ([Dec 7127004615948627497 20; Dec 9121067306168079147 19], Dec 3556861404094714858 21);
  ([Dec 1662322322370579294 20; Dec 7127004615948627497 20], Dec 3556861404094714858 21);
  ([Dec 7127004615948627497 20; Dec 1662322322370579294 20], Dec 3556861404094714858 21);
  ([Dec 6612991922259872091 19; Dec 1416077253379479164 20], Dec 5835586168623432303 21);
  ([Dec 1416077253379479164 20; Dec 6612991922259872091 19], Dec 5835586168623432303 21);
  ([Dec 6612991922259872091 19; Dec 3245400352402180166 19], Dec 5835586168623432303 21);
  ([Dec 3245400352402180166 19; Dec 6612991922259872091 19], Dec 5835586168623432303 21);
  ([Dec 1416077253379479164 20; Dec 3245400352402180166 19], Dec 5835586168623432303 21);
  ([Dec 3245400352402180166 19; Dec 1416077253379479164 20], Dec 5835586168623432303 21);
  ([Dec 1780713890602147742 19; Dec 1453969495894185532 20], Dec 4741131439680423137 21);
  ([Dec 1453969495894185532 20; Dec 1780713890602147742 19], Dec 4741131439680423137 21);
  ([Dec 1780713890602147742 19; Dec 8073889159808433913 19], Dec 4741131439680423137 21);
  ([Dec 8073889159808433913 19; Dec 1780713890602147742 19], Dec 4741131439680423137 21);
  ([Dec 1453969495894185532 20; Dec 8073889159808433913 19], Dec 4741131439680423137 21);
  ([Dec 8073889159808433913 19; Dec 1453969495894185532 20], Dec 4741131439680423137 21)].

(** FillPointsAndWeights, order 17: Quadrature_Gauss2D_Triangle.cpp:1167-1358. *)
Definition Triangle_17 : rule := Rule true [
  ([Dec 2879682575466736005 19; Dec 2879682575466736005 19], Dec 1746460379257200324 20);
  ([Dec 2879682575466736005 19; Dec 4240634849066527434 19], Dec 1746460379257200324 20);
  ([Dec 4240634849066527434 19; Dec 2879682575466736005 19], Dec 1746460379257200324 20);
  ([Dec 4921617598620846579 19; Dec 4921617598620846579 19], Dec 5942900355580172170 21);
  ([Dec 4921617598620846579 19; Dec 1567648027583069467 20], Dec 5942900355580172170 21);
  ([Dec 1567648027583069467 20; Dec 4921617598620846579 19], Dec 5942900355580172170 21);
  ([Dec 4625286676317117429 19; Dec 4625286676317117429 19], Dec 1249075334516957896 20);
  ([Dec 4625286676317117429 19; Dec 7494266473657652805 20], Dec 1249075334516957896 20);
  ([Dec 7494266473657652805 20; Dec 4625286676317117429 19], Dec 1249075334516957896 20);
  ([Dec 1673029295163179220 19; Dec 3442916069550171487 19], Dec 1538698718887560740 20);
  ([Dec 3442916069550171487 19; Dec 1673029295163179220 19], Dec 1538698718887560740 20);
  ([Dec 1673029295163179220 19; Dec 4884054635286649293 19], Dec 1538698718887560740 20);
  ([Dec 4884054635286649293 19; Dec 1673029295163179220 19], Dec 1538698718887560740 20);
  ([Dec 3442916069550171487 19; Dec 4884054635286649293 19], Dec 1538698718887560740 20);
  ([Dec 4884054635286649293 19; Dec 3442916069550171487 19], Dec 1538698718887560740 20);
  ([Dec 1581633550081465167 19; Dec 2254162343155063919 19], Dec 1118580731191770594 20);
  ([Dec 2254162343155063919 19; Dec 1581633550081465167 19], Dec 1118580731191770594 20);
  ([Dec 1581633550081465167 19; Dec 6164204106763471191 19], Dec 1118580731191770594 20);
  ([Dec 6164204106763471191 19; Dec 1581633550081465167 19], Dec 1118580731191770594 20);
  ([Dec 2254162343155063919 19; Dec 6164204106763471191 19], Dec 1118580731191770594 20);
  ([Dec 6164204106763471191 19; Dec 2254162343155063919 19], Dec 1118580731191770594 20);
  ([Dec 1635225213838756575 19; Dec 8067008315353181580 20], Dec 1030184574067020617 20);
  ([Dec 8067008315353181580 20; Dec 1635225213838756575 19], Dec 1030184574067020617 20);
  ([Dec 1635225213838756575 19; Dec 7558073954625925683 19], Dec 1030184574067020617 20);
  ([Dec 7558073954625925683 19; Dec 1635225213838756575 19], Dec 1030184574067020617 20);
  ([Dec 8067008315353181580 20; Dec 7558073954625925683 19], Dec 1030184574067020617 20);
  ([Dec 7558073954625925683 19; Dec 8067008315353181580 20], Dec 1030184574067020617 20);
  ([Dec 6244768048895976698 19; Dec 6596745137505093115 20], Dec 1176778307297705016 20);
  ([Dec 6596745137505093115 20; Dec 6244768048895976698 19], Dec 1176778307297705016 20);
  ([Dec 6244768048895976698 19; Dec 3095557437353513852 19], Dec 1176778307297705016 20);
  ([Dec 3095557437353513852 19; Dec 6244768048895976698 19], Dec 1176778307297705016 20);
  ([Dec 6596745137505093115 20; Dec 3095557437353513852 19], Dec 1176778307297705016 20);
  ([Dec 3095557437353513852 19; Dec 6596745137505093115 20], Dec 1176778307297705016 20);
  ([Dec 8731724993524445644 19; Dec 4567787989099676010 20], Dec 3804531284943121067 21);
  ([Dec 4567787989099676010 20; Dec 8731724993524445644 19], Dec 3804531284943121067 21);
  ([Dec 8731724993524445644 19; Dec 8114962075655869633 20], Dec 3804531284943121067 21);
  ([Dec 8114962075655869633 20; Dec 8731724993524445644 19], Dec 3804531284943121067 21);
  ([Dec 4567787989099676010 20; Dec 8114962075655869633 20], Dec 3804531284943121067 21);
  ([Dec 8114962075655869633 20; Dec 4567787989099676010 20], Dec 3804531284943121067 21);
  ([Dec 3442816432228269496 19; Dec 1152841172315421589 20], Dec 4513930217887635217 21);
  ([Dec 1152841172315421589 20; Dec 3442816432228269496 19], Dec 4513930217887635217 21);
  ([Dec 3442816432228269496 19; Dec 6441899450540188310 19], Dec 4513930217887635217 21);
  ([Dec 6441899450540188310 19; Dec 3442816432228269496 19], Dec 4513930217887635217 21);
  ([Dec 1152841172315421589 20; Dec 6441899450540188310 19], Dec 4513930217887635217 21);
  ([Dec 6441899450540188310 19; Dec 1152841172315421589 20], Dec 4513930217887635217 21);
  ([Dec 9158448446781367047 20; Dec 9305771432390060396 21], Dec 2217881251758058517 21);
  ([Dec 9305771432390060396 21; Dec 9158448446781367047 20], Dec 2217881251758058517 21);
  ([Dec 9158448446781367047 20; Dec 8991097440997962709 19], Dec 2217881251758058517 21);
  ([Dec 8991097440997962709 19; Dec 9158448446781367047 20], Dec 2217881251758058517 21);
  ([Dec 9305771432390060396 21; Dec 8991097440997962709 19], Dec 2217881251758058517 21);
  ([Dec 8991097440997962709 19; Dec 9305771432390060396 21], Dec 2217881251758058517 21);
  ([Dec 2017208801337898871 19; Dec 1591681410761981372 20], Dec 5221627153748366855 21);
  ([Dec 1591681410761981372 20; Dec 2017208801337898871 19], Dec 5221627153748366855 21);
  ([Dec 2017208801337898871 19; Dec 7823623057585903373 19], Dec 5221627153748366855 21);
  ([Dec 7823623057585903373 19; Dec 2017208801337898871 19], Dec 5221627153748366855 21);
  ([Dec 1591681410761981372 20; Dec 7823623057585903373 19], Dec 5221627153748366855 21);
  ([Dec 7823623057585903373 19; Dec 1591681410761981372 20], Dec 5221627153748366855 21);
  ([Dec 9653876275825464814 19; Dec 1073473316376403336 20], Dec 9838113638947025823 22);
  ([Dec 1073473316376403336 20; Dec 9653876275825464814 19], Dec 9838113638947025823 22);
  ([Dec 9653876275825464814 19; Dec 2387763925368953377 20], Dec 9838113638947025823 22);
  ([Dec 2387763925368953377 20; Dec 9653876275825464814 19], Dec 9838113638947025823 22);
  ([Dec 1073473316376403336 20; Dec 2387763925368953377 20], Dec 9838113638947025823 22);
  ([Dec 2387763925368953377 20; Dec 1073473316376403336 20], Dec 9838113638947025823 22)].

(** FillPointsAndWeights, order 18: Quadrature_Gauss2D_Triangle.cpp:1361-1582. *)
Definition Triangle_18 : rule := Rule true [
  ([Dec 3333333333333333148 19; Dec 3333333333333333148 19], Dec 1645316569445949909 20);
  ([Dec 2078002585398699975 20; Dec 4896099870730060144 19], Dec 5165365945635999947 21);
  ([Dec 4896099870730060144 19; Dec 2078002585398699975 20], Dec 5165365945635999947 21);
  ([Dec 4896099870730060144 19; Dec 4896099870730060144 19], Dec 5165365945635999947 21);
  ([Dec 9092621460421500268 20; Dec 4545368926978929913 19], Dec 1119362363150800017 20);
  ([Dec 4545368926978929913 19; Dec 9092621460421500268 20], Dec 1119362363150800017 20);
  ([Dec 4545368926978929913 19; Dec 4545368926978929913 19], Dec 1119362363150800017 20);
  ([Dec 1971666387011379862 19; Dec 4014166806494309792 19], Dec 1513306293473399948 20);
  ([Dec 4014166806494309792 19; Dec 1971666387011379862 19], Dec 1513306293473399948 20);
  ([Dec 4014166806494309792 19; Dec 4014166806494309792 19], Dec 1513306293473399948 20);
  ([Dec 4888966911938050219 19; Dec 2555516544030980164 19], Dec 1524548390109899988 20);
  ([Dec 2555516544030980164 19; Dec 4888966911938050219 19], Dec 1524548390109899988 20);
  ([Dec 2555516544030980164 19; Dec 2555516544030980164 19], Dec 1524548390109899988 20);
  ([Dec 6458441156957409612 19; Dec 1770779421521299912 19], Dec 1207960637082050072 20);
  ([Dec 1770779421521299912 19; Dec 6458441156957409612 19], Dec 1207960637082050072 20);
  ([Dec 1770779421521299912 19; Dec 1770779421521299912 19], Dec 1207960637082050072 20);
  ([Dec 7798778935440959792 19; Dec 1100610532279519965 19], Dec 8025401793400499528 21);
  ([Dec 1100610532279519965 19; Dec 7798778935440959792 19], Dec 8025401793400499528 21);
  ([Dec 1100610532279519965 19; Dec 1100610532279519965 19], Dec 8025401793400499528 21);
  ([Dec 8889427514963209598 19; Dec 5552862425183999889 20], Dec 4042290130891999962 21);
  ([Dec 5552862425183999889 20; Dec 8889427514963209598 19], Dec 4042290130891999962 21);
  ([Dec 5552862425183999889 20; Dec 5552862425183999889 20], Dec 4042290130891999962 21);
  ([Dec 9747562724455429706 19; Dec 1262186377722900044 20], Dec 1039681013742499958 21);
  ([Dec 1262186377722900044 20; Dec 9747562724455429706 19], Dec 1039681013742499958 21);
  ([Dec 1262186377722900044 20; Dec 1262186377722900044 20], Dec 1039681013742499958 21);
  ([Dec 3611417848411999955 21; Dec 3957547873569430275 19], Dec 1942438452490500038 21);
  ([Dec 3611417848411999955 21; Dec 6006337947946449596 19], Dec 1942438452490500038 21);
  ([Dec 3957547873569430275 19; Dec 3611417848411999955 21], Dec 1942438452490500038 21);
  ([Dec 3957547873569430275 19; Dec 6006337947946449596 19], Dec 1942438452490500038 21);
  ([Dec 6006337947946449596 19; Dec 3611417848411999955 21], Dec 1942438452490500038 21);
  ([Dec 6006337947946449596 19; Dec 3957547873569430275 19], Dec 1942438452490500038 21);
  ([Dec 1344667545307799972 19; Dec 3079299838804360201 19], Dec 1278708030601100054 20);
  ([Dec 1344667545307799972 19; Dec 5576032615887840382 19], Dec 1278708030601100054 20);
  ([Dec 3079299838804360201 19; Dec 1344667545307799972 19], Dec 1278708030601100054 20);
  ([Dec 3079299838804360201 19; Dec 5576032615887840382 19], Dec 1278708030601100054 20);
  ([Dec 5576032615887840382 19; Dec 1344667545307799972 19], Dec 1278708030601100054 20);
  ([Dec 5576032615887840382 19; Dec 3079299838804360201 19], Dec 1278708030601100054 20);
  ([Dec 1444602577611499988 20; Dec 2645669484065200083 19], Dec 4440451786668999680 21);
  ([Dec 1444602577611499988 20; Dec 7209870258173649571 19], Dec 4440451786668999680 21);
  ([Dec 2645669484065200083 19; Dec 1444602577611499988 20], Dec 4440451786668999680 21);
  ([Dec 2645669484065200083 19; Dec 7209870258173649571 19], Dec 4440451786668999680 21);
  ([Dec 7209870258173649571 19; Dec 1444602577611499988 20], Dec 4440451786668999680 21);
  ([Dec 7209870258173649571 19; Dec 2645669484065200083 19], Dec 4440451786668999680 21);
  ([Dec 4693357883817800280 20; Dec 3585393522059510119 19], Dec 8062273380865500605 21);
  ([Dec 4693357883817800280 20; Dec 5945270689558710409 19], Dec 8062273380865500605 21);
  ([Dec 3585393522059510119 19; Dec 4693357883817800280 20], Dec 8062273380865500605 21);
  ([Dec 3585393522059510119 19; Dec 5945270689558710409 19], Dec 8062273380865500605 21);
  ([Dec 5945270689558710409 19; Dec 4693357883817800280 20], Dec 8062273380865500605 21);
  ([Dec 5945270689558710409 19; Dec 3585393522059510119 19], Dec 8062273380865500605 21);
  ([Dec 2861120350566999891 21; Dec 1578074059685949937 19], Dec 1245970908745499964 21);
  ([Dec 2861120350566999891 21; Dec 8393314736808390464 19], Dec 1245970908745499964 21);
  ([Dec 1578074059685949937 19; Dec 2861120350566999891 21], Dec 1245970908745499964 21);
  ([Dec 1578074059685949937 19; Dec 8393314736808390464 19], Dec 1245970908745499964 21);
  ([Dec 8393314736808390464 19; Dec 2861120350566999891 21], Dec 1245970908745499964 21);
  ([Dec 8393314736808390464 19; Dec 1578074059685949937 19], Dec 1245970908745499964 21);
  ([Dec 2238614240979160119 19; Dec 7505059697591100198 20], Dec 9121420059475500788 21);
  ([Dec 2238614240979160119 19; Dec 7010879789261730277 19], Dec 9121420059475500788 21);
  ([Dec 7505059697591100198 20; Dec 2238614240979160119 19], Dec 9121420059475500788 21);
  ([Dec 7505059697591100198 20; Dec 7010879789261730277 19], Dec 9121420059475500788 21);
  ([Dec 7010879789261730277 19; Dec 2238614240979160119 19], Dec 9121420059475500788 21);
  ([Dec 7010879789261730277 19; Dec 7505059697591100198 20], Dec 9121420059475500788 21);
  ([Dec 3464707481675999984 20; Dec 1424216011133830062 19], Dec 5129281868099499694 21);
  ([Dec 3464707481675999984 20; Dec 8229313240698570286 19], Dec 5129281868099499694 21);
  ([Dec 1424216011133830062 19; Dec 3464707481675999984 20], Dec 5129281868099499694 21);
  ([Dec 1424216011133830062 19; Dec 8229313240698570286 19], Dec 5129281868099499694 21);
  ([Dec 8229313240698570286 19; Dec 3464707481675999984 20], Dec 5129281868099499694 21);
  ([Dec 8229313240698570286 19; Dec 1424216011133830062 19], Dec 5129281868099499694 21);
  ([Dec 1016111929627800010 20; Dec 6549462808293800287 20], Dec 1899964427650999979 21);
  ([Dec 1016111929627800010 20; Dec 9243442526207840126 19], Dec 1899964427650999979 21);
  ([Dec 6549462808293800287 20; Dec 1016111929627800010 20], Dec 1899964427650999979 21);
  ([Dec 6549462808293800287 20; Dec 9243442526207840126 19], Dec 1899964427650999979 21);
  ([Dec 9243442526207840126 19; Dec 1016111929627800010 20], Dec 1899964427650999979 21);
  ([Dec 9243442526207840126 19; Dec 6549462808293800287 20], Dec 1899964427650999979 21)].

(** FillPointsAndWeights, order 19: Quadrature_Gauss2D_Triangle.cpp:1585-1806. *)
Definition Triangle_19 : rule := Rule true [
  ([Dec 3333333333333333148 19; Dec 3333333333333333148 19], Dec 1645316569445949909 20);
  ([Dec 2078002585398699975 20; Dec 4896099870730060144 19], Dec 5165365945635999947 21);
  ([Dec 4896099870730060144 19; Dec 2078002585398699975 20], Dec 5165365945635999947 21);
  ([Dec 4896099870730060144 19; Dec 4896099870730060144 19], Dec 5165365945635999947 21);
  ([Dec 9092621460421500268 20; Dec 4545368926978929913 19], Dec 1119362363150800017 20);
  ([Dec 4545368926978929913 19; Dec 9092621460421500268 20], Dec 1119362363150800017 20);
  ([Dec 4545368926978929913 19; Dec 4545368926978929913 19], Dec 1119362363150800017 20);
  ([Dec 1971666387011379862 19; Dec 4014166806494309792 19], Dec 1513306293473399948 20);
  ([Dec 4014166806494309792 19; Dec 1971666387011379862 19], Dec 1513306293473399948 20);
  ([Dec 4014166806494309792 19; Dec 4014166806494309792 19], Dec 1513306293473399948 20);
  ([Dec 4888966911938050219 19; Dec 2555516544030980164 19], Dec 1524548390109899988 20);
  ([Dec 2555516544030980164 19; Dec 4888966911938050219 19], Dec 1524548390109899988 20);
  ([Dec 2555516544030980164 19; Dec 2555516544030980164 19], Dec 1524548390109899988 20);
  ([Dec 6458441156957409612 19; Dec 1770779421521299912 19], Dec 1207960637082050072 20);
  ([Dec 1770779421521299912 19; Dec 6458441156957409612 19], Dec 1207960637082050072 20);
  ([Dec 1770779421521299912 19; Dec 1770779421521299912 19], Dec 1207960637082050072 20);
  ([Dec 7798778935440959792 19; Dec 1100610532279519965 19], Dec 8025401793400499528 21);
  ([Dec 1100610532279519965 19; Dec 7798778935440959792 19], Dec 8025401793400499528 21);
  ([Dec 1100610532279519965 19; Dec 1100610532279519965 19], Dec 8025401793400499528 21);
  ([Dec 8889427514963209598 19; Dec 5552862425183999889 20], Dec 4042290130891999962 21);
  ([Dec 5552862425183999889 20; Dec 8889427514963209598 19], Dec 4042290130891999962 21);
  ([Dec 5552862425183999889 20; Dec 5552862425183999889 20], Dec 4042290130891999962 21);
  ([Dec 9747562724455429706 19; Dec 1262186377722900044 20], Dec 1039681013742499958 21);
  ([Dec 1262186377722900044 20; Dec 9747562724455429706 19], Dec 1039681013742499958 21);
  ([Dec 1262186377722900044 20; Dec 1262186377722900044 20], Dec 1039681013742499958 21);
  ([Dec 3611417848411999955 21; Dec 3957547873569430275 19], Dec 1942438452490500038 21);
  ([Dec 3611417848411999955 21; Dec 6006337947946449596 19], Dec 1942438452490500038 21);
  ([Dec 3957547873569430275 19; Dec 3611417848411999955 21], Dec 1942438452490500038 21);
  ([Dec 3957547873569430275 19; Dec 6006337947946449596 19], Dec 1942438452490500038 21);
  ([Dec 6006337947946449596 19; Dec 3611417848411999955 21], Dec 1942438452490500038 21);
  ([Dec 6006337947946449596 19; Dec 3957547873569430275 19], Dec 1942438452490500038 21);
  ([Dec 1344667545307799972 19; Dec 3079299838804360201 19], Dec 1278708030601100054 20);
  ([Dec 1344667545307799972 19; Dec 5576032615887840382 19], Dec 1278708030601100054 20);
  ([Dec 3079299838804360201 19; Dec 1344667545307799972 19], Dec 1278708030601100054 20);
  ([Dec 3079299838804360201 19; Dec 5576032615887840382 19], Dec 1278708030601100054 20);
  ([Dec 5576032615887840382 19; Dec 1344667545307799972 19], Dec 1278708030601100054 20);
  ([Dec 5576032615887840382 19; Dec 3079299838804360201 19], Dec 1278708030601100054 20);
  ([Dec 1444602577611499988 20; Dec 2645669484065200083 19], Dec 4440451786668999680 21);
  ([Dec 1444602577611499988 20; Dec 7209870258173649571 19], Dec 4440451786668999680 21);
  ([Dec 2645669484065200083 19; Dec 1444602577611499988 20], Dec 4440451786668999680 21);
  ([Dec 2645669484065200083 19; Dec 7209870258173649571 19], Dec 4440451786668999680 21);
  ([Dec 7209870258173649571 19; Dec 1444602577611499988 20], Dec 4440451786668999680 21);
  ([Dec 7209870258173649571 19; Dec 2645669484065200083 19], Dec 4440451786668999680 21);
  ([Dec 4693357883817800280 20; Dec 3585393522059510119 19], Dec 8062273380865500605 21);
  ([Dec 4693357883817800280 20; Dec 5945270689558710409 19], Dec 8062273380865500605 21);
  ([Dec 3585393522059510119 19; Dec 4693357883817800280 20], Dec 8062273380865500605 21);
  ([Dec 3585393522059510119 19; Dec 5945270689558710409 19], Dec 8062273380865500605 21);
  ([Dec 5945270689558710409 19; Dec 4693357883817800280 20], Dec 8062273380865500605 21);
  ([Dec 5945270689558710409 19; Dec 3585393522059510119 19], Dec 8062273380865500605 21);
  ([Dec 2861120350566999891 21; Dec 1578074059685949937 19], Dec 1245970908745499964 21);
  ([Dec 2861120350566999891 21; Dec 8393314736808390464 19], Dec 1245970908745499964 21);
  ([Dec 1578074059685949937 19; Dec 2861120350566999891 21], Dec 1245970908745499964 21);
  ([Dec 1578074059685949937 19; Dec 8393314736808390464 19], Dec 1245970908745499964 21);
  ([Dec 8393314736808390464 19; Dec 2861120350566999891 21], Dec 1245970908745499964 21);
  ([Dec 8393314736808390464 19; Dec 1578074059685949937 19], Dec 1245970908745499964 21);
  ([Dec 2238614240979160119 19; Dec 7505059697591100198 20], Dec 9121420059475500788 21);
  ([Dec 2238614240979160119 19; Dec 7010879789261730277 19], Dec 9121420059475500788 21);
  ([Dec 7505059697591100198 20; Dec 2238614240979160119 19], Dec 9121420059475500788 21);
  ([Dec 7505059697591100198 20; Dec 7010879789261730277 19], Dec 9121420059475500788 21);
  ([Dec 7010879789261730277 19; Dec 2238614240979160119 19], Dec 9121420059475500788 21);
  ([Dec 7010879789261730277 19; Dec 7505059697591100198 20], Dec 9121420059475500788 21);
  ([Dec 3464707481675999984 20; Dec 1424216011133830062 19], Dec 5129281868099499694 21);
  ([Dec 3464707481675999984 20; Dec 8229313240698570286 19], Dec 5129281868099499694 21);
  ([Dec 1424216011133830062 19; Dec 3464707481675999984 20], Dec 5129281868099499694 21);
  ([Dec 1424216011133830062 19; Dec 8229313240698570286 19], Dec 5129281868099499694 21);
  ([Dec 8229313240698570286 19; Dec 3464707481675999984 20], Dec 5129281868099499694 21);
  ([Dec 8229313240698570286 19; Dec 1424216011133830062 19], Dec 5129281868099499694 21);
  ([Dec 1016111929627800010 20; Dec 6549462808293800287 20], Dec 1899964427650999979 21);
  ([Dec 1016111929627800010 20; Dec 9243442526207840126 19], Dec 1899964427650999979 21);
  ([Dec 6549462808293800287 20; Dec 1016111929627800010 20], Dec 1899964427650999979 21);
  ([Dec 6549462808293800287 20; Dec 9243442526207840126 19], Dec 1899964427650999979 21);
  ([Dec 9243442526207840126 19; Dec 1016111929627800010 20], Dec 1899964427650999979 21);
  ([Dec 9243442526207840126 19; Dec 6549462808293800287 20], Dec 1899964427650999979 21)].

(** FillPointsAndWeights, order 20: Quadrature_Gauss2D_Triangle.cpp:1809-2066. *)
Definition Triangle_20 : rule := Rule true [
  ([Dec 3333333333333299842 19; Dec 3333333333333299842 19], Dec 1380521349884976032 20);
  ([Dec 1500649324429999959 21; Dec 4992496753377900220 19], Dec 8895147736633700168 22);
  ([Dec 4992496753377900220 19; Dec 1500649324429999959 21], Dec 8895147736633700168 22);
  ([Dec 4992496753377900220 19; Dec 4992496753377900220 19], Dec 8895147736633700168 22);
  ([Dec 9413975193894999483 20; Dec 4529301240305200205 19], Dec 1005619905698058522 20);
  ([Dec 4529301240305200205 19; Dec 9413975193894999483 20], Dec 1005619905698058522 20);
  ([Dec 4529301240305200205 19; Dec 4529301240305200205 19], Dec 1005619905698058522 20);
  ([Dec 2044721240895299996 19; Dec 3977639379552400101 19], Dec 1340892362966578447 20);
  ([Dec 3977639379552400101 19; Dec 2044721240895299996 19], Dec 1340892362966578447 20);
  ([Dec 3977639379552400101 19; Dec 3977639379552400101 19], Dec 1340892362966578447 20);
  ([Dec 4709995949344299992 19; Dec 2645002025327899964 19], Dec 1226156690075100482 20);
  ([Dec 2645002025327899964 19; Dec 4709995949344299992 19], Dec 1226156690075100482 20);
  ([Dec 2645002025327899964 19; Dec 2645002025327899964 19], Dec 1226156690075100482 20);
  ([Dec 5779620718158500203 19; Dec 2110189640920800136 19], Dec 8197289205347695409 21);
  ([Dec 2110189640920800136 19; Dec 5779620718158500203 19], Dec 8197289205347695409 21);
  ([Dec 2110189640920800136 19; Dec 2110189640920800136 19], Dec 8197289205347695409 21);
  ([Dec 7845287856574599816 19; Dec 1077356071712699953 19], Dec 7397953699324799973 21);
  ([Dec 1077356071712699953 19; Dec 7845287856574599816 19], Dec 7397953699324799973 21);
  ([Dec 1077356071712699953 19; Dec 1077356071712699953 19], Dec 7397953699324799973 21);
  ([Dec 9218618243243900112 19; Dec 3906908783779999839 20], Dec 2289641138852125356 21);
  ([Dec 3906908783779999839 20; Dec 9218618243243900112 19], Dec 2289641138852125356 21);
  ([Dec 3906908783779999839 20; Dec 3906908783779999839 20], Dec 2289641138852125356 21);
  ([Dec 9776512405413400053 19; Dec 1117437972933000082 20], Dec 8259132577881085190 22);
  ([Dec 1117437972933000082 20; Dec 9776512405413400053 19], Dec 8259132577881085190 22);
  ([Dec 1117437972933000082 20; Dec 1117437972933000082 20], Dec 8259132577881085190 22);
  ([Dec 5349618187339999845 21; Dec 6354966590834999762 20], Dec 1174585454287791972 21);
  ([Dec 5349618187339999845 21; Dec 9311007159043099835 19], Dec 1174585454287791972 21);
  ([Dec 6354966590834999762 20; Dec 5349618187339999845 21], Dec 1174585454287791972 21);
  ([Dec 6354966590834999762 20; Dec 9311007159043099835 19], Dec 1174585454287791972 21);
  ([Dec 9311007159043099835 19; Dec 5349618187339999845 21], Dec 1174585454287791972 21);
  ([Dec 9311007159043099835 19; Dec 6354966590834999762 20], Dec 1174585454287791972 21);
  ([Dec 7954817066199999787 21; Dec 1571069189407099942 19], Dec 2232962877090896667 21);
  ([Dec 7954817066199999787 21; Dec 8349382639930900130 19], Dec 2232962877090896667 21);
  ([Dec 1571069189407099942 19; Dec 7954817066199999787 21], Dec 2232962877090896667 21);
  ([Dec 1571069189407099942 19; Dec 8349382639930900130 19], Dec 2232962877090896667 21);
  ([Dec 8349382639930900130 19; Dec 7954817066199999787 21], Dec 2232962877090896667 21);
  ([Dec 8349382639930900130 19; Dec 1571069189407099942 19], Dec 2232962877090896667 21);
  ([Dec 1042239828126000079 20; Dec 3956421143643700233 19], Dec 3049783403953986068 21);
  ([Dec 1042239828126000079 20; Dec 5939354873543599700 19], Dec 3049783403953986068 21);
  ([Dec 3956421143643700233 19; Dec 1042239828126000079 20], Dec 3049783403953986068 21);
  ([Dec 3956421143643700233 19; Dec 5939354873543599700 19], Dec 3049783403953986068 21);
  ([Dec 5939354873543599700 19; Dec 1042239828126000079 20], Dec 3049783403953986068 21);
  ([Dec 5939354873543599700 19; Dec 3956421143643700233 19], Dec 3049783403953986068 21);
  ([Dec 1096441479612000024 20; Dec 2731675707129099795 19], Dec 3445540663594101518 21);
  ([Dec 1096441479612000024 20; Dec 7158680144909700394 19], Dec 3445540663594101518 21);
  ([Dec 2731675707129099795 19; Dec 1096441479612000024 20], Dec 3445540663594101518 21);
  ([Dec 2731675707129099795 19; Dec 7158680144909700394 19], Dec 3445540663594101518 21);
  ([Dec 7158680144909700394 19; Dec 1096441479612000024 20], Dec 3445540663594101518 21);
  ([Dec 7158680144909700394 19; Dec 2731675707129099795 19], Dec 3445540663594101518 21);
  ([Dec 3856671208546000318 20; Dec 1017853824850200040 19], Dec 3998737536239081389 21);
  ([Dec 3856671208546000318 20; Dec 8596479054295199651 19], Dec 3998737536239081389 21);
  ([Dec 1017853824850200040 19; Dec 3856671208546000318 20], Dec 3998737536239081389 21);
  ([Dec 1017853824850200040 19; Dec 8596479054295199651 19], Dec 3998737536239081389 21);
  ([Dec 8596479054295199651 19; Dec 3856671208546000318 20], Dec 3998737536239081389 21);
  ([Dec 8596479054295199651 19; Dec 1017853824850200040 19], Dec 3998737536239081389 21);
  ([Dec 3558050781721999734 20; Dec 4466585491764100135 19], Dec 3693067142668011917 21);
  ([Dec 3558050781721999734 20; Dec 5177609430063699891 19], Dec 3693067142668011917 21);
  ([Dec 4466585491764100135 19; Dec 3558050781721999734 20], Dec 3693067142668011917 21);
  ([Dec 4466585491764100135 19; Dec 5177609430063699891 19], Dec 3693067142668011917 21);
  ([Dec 5177609430063699891 19; Dec 3558050781721999734 20], Dec 3693067142668011917 21);
  ([Dec 5177609430063699891 19; Dec 4466585491764100135 19], Dec 3693067142668011917 21);
  ([Dec 4967081636276000217 20; Dec 1990107941494999866 19], Dec 6399665939324130325 21);
  ([Dec 4967081636276000217 20; Dec 7513183894877299984 19], Dec 6399665939324130325 21);
  ([Dec 1990107941494999866 19; Dec 4967081636276000217 20], Dec 6399665939324130325 21);
  ([Dec 1990107941494999866 19; Dec 7513183894877299984 19], Dec 6399665939324130325 21);
  ([Dec 7513183894877299984 19; Dec 4967081636276000217 20], Dec 6399665939324130325 21);
  ([Dec 7513183894877299984 19; Dec 1990107941494999866 19], Dec 6399665939324130325 21);
  ([Dec 5851972508433000292 20; Dec 3242611836922800195 19], Dec 8629035587848275443 21);
  ([Dec 5851972508433000292 20; Dec 6172190912233900262 19], Dec 8629035587848275443 21);
  ([Dec 3242611836922800195 19; Dec 5851972508433000292 20], Dec 8629035587848275443 21);
  ([Dec 3242611836922800195 19; Dec 6172190912233900262 19], Dec 8629035587848275443 21);
  ([Dec 6172190912233900262 19; Dec 5851972508433000292 20], Dec 8629035587848275443 21);
  ([Dec 6172190912233900262 19; Dec 3242611836922800195 19], Dec 8629035587848275443 21);
  ([Dec 1214977870043899982 19; Dec 2085313632101299941 19], Dec 9336472951467734635 21);
  ([Dec 1214977870043899982 19; Dec 6699708497854699463 19], Dec 9336472951467734635 21);
  ([Dec 2085313632101299941 19; Dec 1214977870043899982 19], Dec 9336472951467734635 21);
  ([Dec 2085313632101299941 19; Dec 6699708497854699463 19], Dec 9336472951467734635 21);
  ([Dec 6699708497854699463 19; Dec 1214977870043899982 19], Dec 9336472951467734635 21);
  ([Dec 6699708497854699463 19; Dec 2085313632101299941 19], Dec 9336472951467734635 21);
  ([Dec 1407108449439400111 19; Dec 3231705665362599733 19], Dec 1140911202919762946 20);
  ([Dec 1407108449439400111 19; Dec 5361185885197999879 19], Dec 1140911202919762946 20);
  ([Dec 3231705665362599733 19; Dec 1407108449439400111 19], Dec 1140911202919762946 20);
  ([Dec 3231705665362599733 19; Dec 5361185885197999879 19], Dec 1140911202919762946 20);
  ([Dec 5361185885197999879 19; Dec 1407108449439400111 19], Dec 1140911202919762946 20);
  ([Dec 5361185885197999879 19; Dec 3231705665362599733 19], Dec 1140911202919762946 20)].

(** FillPointsAndWeights, order 21: Quadrature_Gauss2D_Triangle.cpp:2069-2326. *)
Definition Triangle_21 : rule := Rule true [
  ([Dec 3333333333333299842 19; Dec 3333333333333299842 19], Dec 1380521349884976032 20);
  ([Dec 1500649324429999959 21; Dec 4992496753377900220 19], Dec 8895147736633700168 22);
  ([Dec 4992496753377900220 19; Dec 1500649324429999959 21], Dec 8895147736633700168 22);
  ([Dec 4992496753377900220 19; Dec 4992496753377900220 19], Dec 8895147736633700168 22);
  ([Dec 9413975193894999483 20; Dec 4529301240305200205 19], Dec 1005619905698058522 20);
  ([Dec 4529301240305200205 19; Dec 9413975193894999483 20], Dec 1005619905698058522 20);
  ([Dec 4529301240305200205 19; Dec 4529301240305200205 19], Dec 1005619905698058522 20);
  ([Dec 2044721240895299996 19; Dec 3977639379552400101 19], Dec 1340892362966578447 20);
  ([Dec 3977639379552400101 19; Dec 2044721240895299996 19], Dec 1340892362966578447 20);
  ([Dec 3977639379552400101 19; Dec 3977639379552400101 19], Dec 1340892362966578447 20);
  ([Dec 4709995949344299992 19; Dec 2645002025327899964 19], Dec 1226156690075100482 20);
  ([Dec 2645002025327899964 19; Dec 4709995949344299992 19], Dec 1226156690075100482 20);
  ([Dec 2645002025327899964 19; Dec 2645002025327899964 19], Dec 1226156690075100482 20);
  ([Dec 5779620718158500203 19; Dec 2110189640920800136 19], Dec 8197289205347695409 21);
  ([Dec 2110189640920800136 19; Dec 5779620718158500203 19], Dec 8197289205347695409 21);
  ([Dec 2110189640920800136 19; Dec 2110189640920800136 19], Dec 8197289205347695409 21);
  ([Dec 7845287856574599816 19; Dec 1077356071712699953 19], Dec 7397953699324799973 21);
  ([Dec 1077356071712699953 19; Dec 7845287856574599816 19], Dec 7397953699324799973 21);
  ([Dec 1077356071712699953 19; Dec 1077356071712699953 19], Dec 7397953699324799973 21);
  ([Dec 9218618243243900112 19; Dec 3906908783779999839 20], Dec 2289641138852125356 21);
  ([Dec 3906908783779999839 20; Dec 9218618243243900112 19], Dec 2289641138852125356 21);
  ([Dec 3906908783779999839 20; Dec 3906908783779999839 20], Dec 2289641138852125356 21);
  ([Dec 9776512405413400053 19; Dec 1117437972933000082 20], Dec 8259132577881085190 22);
  ([Dec 1117437972933000082 20; Dec 9776512405413400053 19], Dec 8259132577881085190 22);
  ([Dec 1117437972933000082 20; Dec 1117437972933000082 20], Dec 8259132577881085190 22);
  ([Dec 5349618187339999845 21; Dec 6354966590834999762 20], Dec 1174585454287791972 21);
  ([Dec 5349618187339999845 21; Dec 9311007159043099835 19], Dec 1174585454287791972 21);
  ([Dec 6354966590834999762 20; Dec 5349618187339999845 21], Dec 1174585454287791972 21);
  ([Dec 6354966590834999762 20; Dec 9311007159043099835 19], Dec 1174585454287791972 21);
  ([Dec 9311007159043099835 19; Dec 5349618187339999845 21], Dec 1174585454287791972 21);
  ([Dec 9311007159043099835 19; Dec 6354966590834999762 20], Dec 1174585454287791972 21);
  ([Dec 7954817066199999787 21; Dec 1571069189407099942 19], Dec 2232962877090896667 21);
  ([Dec 7954817066199999787 21; Dec 8349382639930900130 19], Dec 2232962877090896667 21);
  ([Dec 1571069189407099942 19; Dec 7954817066199999787 21], Dec 2232962877090896667 21);
  ([Dec 1571069189407099942 19; Dec 8349382639930900130 19], Dec 2232962877090896667 21);
  ([Dec 8349382639930900130 19; Dec 7954817066199999787 21], Dec 2232962877090896667 21);
  ([Dec 8349382639930900130 19; Dec 1571069189407099942 19], Dec 2232962877090896667 21);
  ([Dec 1042239828126000079 20; Dec 3956421143643700233 19], Dec 3049783403953986068 21);
  ([Dec 1042239828126000079 20; Dec 5939354873543599700 19], Dec 3049783403953986068 21);
  ([Dec 3956421143643700233 19; Dec 1042239828126000079 20], Dec 3049783403953986068 21);
  ([Dec 3956421143643700233 19; Dec 5939354873543599700 19], Dec 3049783403953986068 21);
  ([Dec 5939354873543599700 19; Dec 1042239828126000079 20], Dec 3049783403953986068 21);
  ([Dec 5939354873543599700 19; Dec 3956421143643700233 19], Dec 3049783403953986068 21);
  ([Dec 1096441479612000024 20; Dec 2731675707129099795 19], Dec 3445540663594101518 21);
  ([Dec 1096441479612000024 20; Dec 7158680144909700394 19], Dec 3445540663594101518 21);
  ([Dec 2731675707129099795 19; Dec 1096441479612000024 20], Dec 3445540663594101518 21);
  ([Dec 2731675707129099795 19; Dec 7158680144909700394 19], Dec 3445540663594101518 21);
  ([Dec 7158680144909700394 19; Dec 1096441479612000024 20], Dec 3445540663594101518 21);
  ([Dec 7158680144909700394 19; Dec 2731675707129099795 19], Dec 3445540663594101518 21);
  ([Dec 3856671208546000318 20; Dec 1017853824850200040 19], Dec 3998737536239081389 21);
  ([Dec 3856671208546000318 20; Dec 8596479054295199651 19], Dec 3998737536239081389 21);
  ([Dec 1017853824850200040 19; Dec 3856671208546000318 20], Dec 3998737536239081389 21);
  ([Dec 1017853824850200040 19; Dec 8596479054295199651 19], Dec 3998737536239081389 21);
  ([Dec 8596479054295199651 19; Dec 3856671208546000318 20], Dec 3998737536239081389 21);
  ([Dec 8596479054295199651 19; Dec 1017853824850200040 19], Dec 3998737536239081389 21);
  ([Dec 3558050781721999734 20; Dec 4466585491764100135 19], Dec 3693067142668011917 21);
  ([Dec 3558050781721999734 20; Dec 5177609430063699891 19], Dec 3693067142668011917 21);
  ([Dec 4466585491764100135 19; Dec 3558050781721999734 20], Dec 3693067142668011917 21);
  ([Dec 4466585491764100135 19; Dec 5177609430063699891 19], Dec 3693067142668011917 21);
  ([Dec 5177609430063699891 19; Dec 3558050781721999734 20], Dec 3693067142668011917 21);
  ([Dec 5177609430063699891 19; Dec 4466585491764100135 19], Dec 3693067142668011917 21);
  ([Dec 4967081636276000217 20; Dec 1990107941494999866 19], Dec 6399665939324130325 21);
  ([Dec 4967081636276000217 20; Dec 7513183894877299984 19], Dec 6399665939324130325 21);
  ([Dec 1990107941494999866 19; Dec 4967081636276000217 20], Dec 6399665939324130325 21);
  ([Dec 1990107941494999866 19; Dec 7513183894877299984 19], Dec 6399665939324130325 21);
  ([Dec 7513183894877299984 19; Dec 4967081636276000217 20], Dec 6399665939324130325 21);
  ([Dec 7513183894877299984 19; Dec 1990107941494999866 19], Dec 6399665939324130325 21);
  ([Dec 5851972508433000292 20; Dec 3242611836922800195 19], Dec 8629035587848275443 21);
  ([Dec 5851972508433000292 20; Dec 6172190912233900262 19], Dec 8629035587848275443 21);
  ([Dec 3242611836922800195 19; Dec 5851972508433000292 20], Dec 8629035587848275443 21);
  ([Dec 3242611836922800195 19; Dec 6172190912233900262 19], Dec 8629035587848275443 21);
  ([Dec 6172190912233900262 19; Dec 5851972508433000292 20], Dec 8629035587848275443 21);
  ([Dec 6172190912233900262 19; Dec 3242611836922800195 19], Dec 8629035587848275443 21);
  ([Dec 1214977870043899982 19; Dec 2085313632101299941 19], Dec 9336472951467734635 21);
  ([Dec 1214977870043899982 19; Dec 6699708497854699463 19], Dec 9336472951467734635 21);
  ([Dec 2085313632101299941 19; Dec 1214977870043899982 19], Dec 9336472951467734635 21);
  ([Dec 2085313632101299941 19; Dec 6699708497854699463 19], Dec 9336472951467734635 21);
  ([Dec 6699708497854699463 19; Dec 1214977870043899982 19], Dec 9336472951467734635 21);
  ([Dec 6699708497854699463 19; Dec 2085313632101299941 19], Dec 9336472951467734635 21);
  ([Dec 1407108449439400111 19; Dec 3231705665362599733 19], Dec 1140911202919762946 20);
  ([Dec 1407108449439400111 19; Dec 5361185885197999879 19], Dec 1140911202919762946 20);
  ([Dec 3231705665362599733 19; Dec 1407108449439400111 19], Dec 1140911202919762946 20);
  ([Dec 3231705665362599733 19; Dec 5361185885197999879 19], Dec 1140911202919762946 20);
  ([Dec 5361185885197999879 19; Dec 1407108449439400111 19], Dec 1140911202919762946 20);
  ([Dec 5361185885197999879 19; Dec 3231705665362599733 19], Dec 1140911202919762946 20)].

(** FillPointsAndWeights, order 22: Quadrature_Gauss2D_Triangle.cpp:2329-2709. *)
Definition Triangle_22 : rule := Rule true [
  ([Dec 2794648307316999897 20; Dec 4860267584634099802 19], Dec 4002790940010208555 21);
  ([Dec 4860267584634099802 19; Dec 2794648307316999897 20], Dec 4002790940010208555 21);
  ([Dec 4860267584634099802 19; Dec 4860267584634099802 19], Dec 4002790940010208555 21);
  ([Dec 1311786013276499963 19; Dec 4344106993361699920 19], Dec 7973538416195250639 21);
  ([Dec 4344106993361699920 19; Dec 1311786013276499963 19], Dec 7973538416195250639 21);
  ([Dec 4344106993361699920 19; Dec 4344106993361699920 19], Dec 7973538416195250639 21);
  ([Dec 2202217295120700025 19; Dec 3898891352439600166 19], Dec 6554570615397764879 21);
  ([Dec 3898891352439600166 19; Dec 2202217295120700025 19], Dec 6554570615397764879 21);
  ([Dec 3898891352439600166 19; Dec 3898891352439600166 19], Dec 6554570615397764879 21);
  ([Dec 4031135319603900147 19; Dec 2984432340197999967 19], Dec 9791500482817809894 21);
  ([Dec 2984432340197999967 19; Dec 4031135319603900147 19], Dec 9791500482817809894 21);
  ([Dec 2984432340197999967 19; Dec 2984432340197999967 19], Dec 9791500482817809894 21);
  ([Dec 5319116553252599688 19; Dec 2340441723373699878 19], Dec 8235442720768634817 21);
  ([Dec 2340441723373699878 19; Dec 5319116553252599688 19], Dec 8235442720768634817 21);
  ([Dec 2340441723373699878 19; Dec 2340441723373699878 19], Dec 8235442720768634817 21);
  ([Dec 6970633307819600333 19; Dec 1514683346090200111 19], Dec 4273639537046050076 21);
  ([Dec 1514683346090200111 19; Dec 6970633307819600333 19], Dec 4273639537046050076 21);
  ([Dec 1514683346090200111 19; Dec 1514683346090200111 19], Dec 4273639537046050076 21);
  ([Dec 7745322129080099982 19; Dec 1127338935459900049 19], Dec 4080942928613245924 21);
  ([Dec 1127338935459900049 19; Dec 7745322129080099982 19], Dec 4080942928613245924 21);
  ([Dec 1127338935459900049 19; Dec 1127338935459900049 19], Dec 4080942928613245924 21);
  ([Dec 8445686158169499747 19; Dec 7771569209152999480 20], Dec 3060573269991889549 21);
  ([Dec 7771569209152999480 20; Dec 8445686158169499747 19], Dec 3060573269991889549 21);
  ([Dec 7771569209152999480 20; Dec 7771569209152999480 20], Dec 3060573269991889549 21);
  ([Dec 9302138127714100202 19; Dec 3489309361429999978 20], Dec 1454249132468332434 21);
  ([Dec 3489309361429999978 20; Dec 9302138127714100202 19], Dec 1454249132468332434 21);
  ([Dec 3489309361429999978 20; Dec 3489309361429999978 20], Dec 1454249132468332434 21);
  ([Dec 9854836307581299470 19; Dec 7258184620930000115 21], Dec 3461376228309981438 22);
  ([Dec 7258184620930000115 21; Dec 9854836307581299470 19], Dec 3461376228309981438 22);
  ([Dec 7258184620930000115 21; Dec 7258184620930000115 21], Dec 3461376228309981438 22);
  ([Dec 1292352704439999906 21; Dec 2272144521533600026 19], Dec 6241445996386984834 22);
  ([Dec 1292352704439999906 21; Dec 7714931951421899470 19], Dec 6241445996386984834 22);
  ([Dec 2272144521533600026 19; Dec 1292352704439999906 21], Dec 6241445996386984834 22);
  ([Dec 2272144521533600026 19; Dec 7714931951421899470 19], Dec 6241445996386984834 22);
  ([Dec 7714931951421899470 19; Dec 1292352704439999906 21], Dec 6241445996386984834 22);
  ([Dec 7714931951421899470 19; Dec 2272144521533600026 19], Dec 6241445996386984834 22);
  ([Dec 5399701272119999951 21; Dec 4350105548535699862 19], Dec 1702376454401511013 21);
  ([Dec 5399701272119999951 21; Dec 5595897438743100416 19], Dec 1702376454401511013 21);
  ([Dec 4350105548535699862 19; Dec 5399701272119999951 21], Dec 1702376454401511013 21);
  ([Dec 4350105548535699862 19; Dec 5595897438743100416 19], Dec 1702376454401511013 21);
  ([Dec 5595897438743100416 19; Dec 5399701272119999951 21], Dec 1702376454401511013 21);
  ([Dec 5595897438743100416 19; Dec 4350105548535699862 19], Dec 1702376454401511013 21);
  ([Dec 6384003033980000311 21; Dec 3203095992721999852 19], Dec 1679827163032025436 21);
  ([Dec 6384003033980000311 21; Dec 6733063976938199469 19], Dec 1679827163032025436 21);
  ([Dec 3203095992721999852 19; Dec 6384003033980000311 21], Dec 1679827163032025436 21);
  ([Dec 3203095992721999852 19; Dec 6733063976938199469 19], Dec 1679827163032025436 21);
  ([Dec 6733063976938199469 19; Dec 6384003033980000311 21], Dec 1679827163032025436 21);
  ([Dec 6733063976938199469 19; Dec 3203095992721999852 19], Dec 1679827163032025436 21);
  ([Dec 5028211501990000228 21; Dec 9175032228000999657 20], Dec 8580782697483770299 22);
  ([Dec 5028211501990000228 21; Dec 9032214662180000353 19], Dec 8580782697483770299 22);
  ([Dec 9175032228000999657 20; Dec 5028211501990000228 21], Dec 8580782697483770299 22);
  ([Dec 9175032228000999657 20; Dec 9032214662180000353 19], Dec 8580782697483770299 22);
  ([Dec 9032214662180000353 19; Dec 5028211501990000228 21], Dec 8580782697483770299 22);
  ([Dec 9032214662180000353 19; Dec 9175032228000999657 20], Dec 8580782697483770299 22);
  ([Dec 6826758621780000362 21; Dec 3801083585871999765 20], Dec 7404281583578030054 22);
  ([Dec 6826758621780000362 21; Dec 9551624055194900542 19], Dec 7404281583578030054 22);
  ([Dec 3801083585871999765 20; Dec 6826758621780000362 21], Dec 7404281583578030054 22);
  ([Dec 3801083585871999765 20; Dec 9551624055194900542 19], Dec 7404281583578030054 22);
  ([Dec 9551624055194900542 19; Dec 6826758621780000362 21], Dec 7404281583578030054 22);
  ([Dec 9551624055194900542 19; Dec 3801083585871999765 20], Dec 7404281583578030054 22);
  ([Dec 1001619963992999955 20; Dec 1574252184853099923 19], Dec 1755656305364342506 21);
  ([Dec 1001619963992999955 20; Dec 8325585818747599509 19], Dec 1755656305364342506 21);
  ([Dec 1574252184853099923 19; Dec 1001619963992999955 20], Dec 1755656305364342506 21);
  ([Dec 1574252184853099923 19; Dec 8325585818747599509 19], Dec 1755656305364342506 21);
  ([Dec 8325585818747599509 19; Dec 1001619963992999955 20], Dec 1755656305364342506 21);
  ([Dec 8325585818747599509 19; Dec 1574252184853099923 19], Dec 1755656305364342506 21);
  ([Dec 2575781317339000120 20; Dec 2398896597785299956 19], Dec 3696775074853241895 21);
  ([Dec 2575781317339000120 20; Dec 7343525270480799616 19], Dec 3696775074853241895 21);
  ([Dec 2398896597785299956 19; Dec 2575781317339000120 20], Dec 3696775074853241895 21);
  ([Dec 2398896597785299956 19; Dec 7343525270480799616 19], Dec 3696775074853241895 21);
  ([Dec 7343525270480799616 19; Dec 2575781317339000120 20], Dec 3696775074853241895 21);
  ([Dec 7343525270480799616 19; Dec 2398896597785299956 19], Dec 3696775074853241895 21);
  ([Dec 3022789811992000059 20; Dec 3619431181260600039 19], Dec 3991543738688279122 21);
  ([Dec 3022789811992000059 20; Dec 6078289837540199470 19], Dec 3991543738688279122 21);
  ([Dec 3619431181260600039 19; Dec 3022789811992000059 20], Dec 3991543738688279122 21);
  ([Dec 3619431181260600039 19; Dec 6078289837540199470 19], Dec 3991543738688279122 21);
  ([Dec 6078289837540199470 19; Dec 3022789811992000059 20], Dec 3991543738688279122 21);
  ([Dec 6078289837540199470 19; Dec 3619431181260600039 19], Dec 3991543738688279122 21);
  ([Dec 3050499010715999881 20; Dec 8355196095483000129 20], Dec 2177981306579020691 21);
  ([Dec 3050499010715999881 20; Dec 8859430489380100138 19], Dec 2177981306579020691 21);
  ([Dec 8355196095483000129 20; Dec 3050499010715999881 20], Dec 2177981306579020691 21);
  ([Dec 8355196095483000129 20; Dec 8859430489380100138 19], Dec 2177981306579020691 21);
  ([Dec 8859430489380100138 19; Dec 3050499010715999881 20], Dec 2177981306579020691 21);
  ([Dec 8859430489380100138 19; Dec 8355196095483000129 20], Dec 2177981306579020691 21);
  ([Dec 4595654736257000217 20; Dec 1484432207324200004 19], Dec 3682528350708915918 21);
  ([Dec 4595654736257000217 20; Dec 8056002319050099558 19], Dec 3682528350708915918 21);
  ([Dec 1484432207324200004 19; Dec 4595654736257000217 20], Dec 3682528350708915918 21);
  ([Dec 1484432207324200004 19; Dec 8056002319050099558 19], Dec 3682528350708915918 21);
  ([Dec 8056002319050099558 19; Dec 4595654736257000217 20], Dec 3682528350708915918 21);
  ([Dec 8056002319050099558 19; Dec 1484432207324200004 19], Dec 3682528350708915918 21);
  ([Dec 6744280054027999849 20; Dec 2837397087275300156 19], Dec 5481786423209775161 21);
  ([Dec 6744280054027999849 20; Dec 6488174907321899720 19], Dec 5481786423209775161 21);
  ([Dec 2837397087275300156 19; Dec 6744280054027999849 20], Dec 5481786423209775161 21);
  ([Dec 2837397087275300156 19; Dec 6488174907321899720 19], Dec 5481786423209775161 21);
  ([Dec 6488174907321899720 19; Dec 6744280054027999849 20], Dec 5481786423209775161 21);
  ([Dec 6488174907321899720 19; Dec 2837397087275300156 19], Dec 5481786423209775161 21);
  ([Dec 7004509141591000465 20; Dec 4068993751187899854 19], Dec 5874980871770560387 21);
  ([Dec 7004509141591000465 20; Dec 5230555334652999822 19], Dec 5874980871770560387 21);
  ([Dec 4068993751187899854 19; Dec 7004509141591000465 20], Dec 5874980871770560387 21);
  ([Dec 4068993751187899854 19; Dec 5230555334652999822 19], Dec 5874980871770560387 21);
  ([Dec 5230555334652999822 19; Dec 7004509141591000465 20], Dec 5874980871770560387 21);
  ([Dec 5230555334652999822 19; Dec 4068993751187899854 19], Dec 5874980871770560387 21);
  ([Dec 8391152464011999990 20; Dec 1941139870248899946 19], Dec 5007800356899285051 21);
  ([Dec 8391152464011999990 20; Dec 7219744883349900055 19], Dec 5007800356899285051 21);
  ([Dec 1941139870248899946 19; Dec 8391152464011999990 20], Dec 5007800356899285051 21);
  ([Dec 1941139870248899946 19; Dec 7219744883349900055 19], Dec 5007800356899285051 21);
  ([Dec 7219744883349900055 19; Dec 8391152464011999990 20], Dec 5007800356899285051 21);
  ([Dec 7219744883349900055 19; Dec 1941139870248899946 19], Dec 5007800356899285051 21);
  ([Dec 1203755356771499946 19; Dec 3241343470006999850 19], Dec 6654820393814340172 21);
  ([Dec 1203755356771499946 19; Dec 5554901173221400423 19], Dec 6654820393814340172 21);
  ([Dec 3241343470006999850 19; Dec 1203755356771499946 19], Dec 6654820393814340172 21);
  ([Dec 3241343470006999850 19; Dec 5554901173221400423 19], Dec 6654820393814340172 21);
  ([Dec 5554901173221400423 19; Dec 1203755356771499946 19], Dec 6654820393814340172 21);
  ([Dec 5554901173221400423 19; Dec 3241343470006999850 19], Dec 6654820393814340172 21);
  ([Dec 1480668991573700077 19; Dec 2292774835559799884 19], Dec 7077223252613069893 21);
  ([Dec 1480668991573700077 19; Dec 6226556172866499761 19], Dec 7077223252613069893 21);
  ([Dec 2292774835559799884 19; Dec 1480668991573700077 19], Dec 7077223252613069893 21);
  ([Dec 2292774835559799884 19; Dec 6226556172866499761 19], Dec 7077223252613069893 21);
  ([Dec 6226556172866499761 19; Dec 1480668991573700077 19], Dec 7077223252613069893 21);
  ([Dec 6226556172866499761 19; Dec 2292774835559799884 19], Dec 7077223252613069893 21);
  ([Dec 1917718658673299992 19; Dec 3256181225959799974 19], Dec 7440689780584004882 21);
  ([Dec 1917718658673299992 19; Dec 4826100115366899757 19], Dec 7440689780584004882 21);
  ([Dec 3256181225959799974 19; Dec 1917718658673299992 19], Dec 7440689780584004882 21);
  ([Dec 3256181225959799974 19; Dec 4826100115366899757 19], Dec 7440689780584004882 21);
  ([Dec 4826100115366899757 19; Dec 1917718658673299992 19], Dec 7440689780584004882 21);
  ([Dec 4826100115366899757 19; Dec 3256181225959799974 19], Dec 7440689780584004882 21)].

(** FillPointsAndWeights, order 23: Quadrature_Gauss2D_Triangle.cpp:2712-3092. *)
Definition Triangle_23 : rule := Rule true [
  ([Dec 2794648307316999897 20; Dec 4860267584634099802 19], Dec 4002790940010208555 21);
  ([Dec 4860267584634099802 19; Dec 2794648307316999897 20], Dec 4002790940010208555 21);
  ([Dec 4860267584634099802 19; Dec 4860267584634099802 19], Dec 4002790940010208555 21);
  ([Dec 1311786013276499963 19; Dec 4344106993361699920 19], Dec 7973538416195250639 21);
  ([Dec 4344106993361699920 19; Dec 1311786013276499963 19], Dec 7973538416195250639 21);
  ([Dec 4344106993361699920 19; Dec 4344106993361699920 19], Dec 7973538416195250639 21);
  ([Dec 2202217295120700025 19; Dec 3898891352439600166 19], Dec 6554570615397764879 21);
  ([Dec 3898891352439600166 19; Dec 2202217295120700025 19], Dec 6554570615397764879 21);
  ([Dec 3898891352439600166 19; Dec 3898891352439600166 19], Dec 6554570615397764879 21);
  ([Dec 4031135319603900147 19; Dec 2984432340197999967 19], Dec 9791500482817809894 21);
  ([Dec 2984432340197999967 19; Dec 4031135319603900147 19], Dec 9791500482817809894 21);
  ([Dec 2984432340197999967 19; Dec 2984432340197999967 19], Dec 9791500482817809894 21);
  ([Dec 5319116553252599688 19; Dec 2340441723373699878 19], Dec 8235442720768634817 21);
  ([Dec 2340441723373699878 19; Dec 5319116553252599688 19], Dec 8235442720768634817 21);
  ([Dec 2340441723373699878 19; Dec 2340441723373699878 19], Dec 8235442720768634817 21);
  ([Dec 6970633307819600333 19; Dec 1514683346090200111 19], Dec 4273639537046050076 21);
  ([Dec 1514683346090200111 19; Dec 6970633307819600333 19], Dec 4273639537046050076 21);
  ([Dec 1514683346090200111 19; Dec 1514683346090200111 19], Dec 4273639537046050076 21);
  ([Dec 7745322129080099982 19; Dec 1127338935459900049 19], Dec 4080942928613245924 21);
  ([Dec 1127338935459900049 19; Dec 7745322129080099982 19], Dec 4080942928613245924 21);
  ([Dec 1127338935459900049 19; Dec 1127338935459900049 19], Dec 4080942928613245924 21);
  ([Dec 8445686158169499747 19; Dec 7771569209152999480 20], Dec 3060573269991889549 21);
  ([Dec 7771569209152999480 20; Dec 8445686158169499747 19], Dec 3060573269991889549 21);
  ([Dec 7771569209152999480 20; Dec 7771569209152999480 20], Dec 3060573269991889549 21);
  ([Dec 9302138127714100202 19; Dec 3489309361429999978 20], Dec 1454249132468332434 21);
  ([Dec 3489309361429999978 20; Dec 9302138127714100202 19], Dec 1454249132468332434 21);
  ([Dec 3489309361429999978 20; Dec 3489309361429999978 20], Dec 1454249132468332434 21);
  ([Dec 9854836307581299470 19; Dec 7258184620930000115 21], Dec 3461376228309981438 22);
  ([Dec 7258184620930000115 21; Dec 9854836307581299470 19], Dec 3461376228309981438 22);
  ([Dec 7258184620930000115 21; Dec 7258184620930000115 21], Dec 3461376228309981438 22);
  ([Dec 1292352704439999906 21; Dec 2272144521533600026 19], Dec 6241445996386984834 22);
  ([Dec 1292352704439999906 21; Dec 7714931951421899470 19], Dec 6241445996386984834 22);
  ([Dec 2272144521533600026 19; Dec 1292352704439999906 21], Dec 6241445996386984834 22);
  ([Dec 2272144521533600026 19; Dec 7714931951421899470 19], Dec 6241445996386984834 22);
  ([Dec 7714931951421899470 19; Dec 1292352704439999906 21], Dec 6241445996386984834 22);
  ([Dec 7714931951421899470 19; Dec 2272144521533600026 19], Dec 6241445996386984834 22);
  ([Dec 5399701272119999951 21; Dec 4350105548535699862 19], Dec 1702376454401511013 21);
  ([Dec 5399701272119999951 21; Dec 5595897438743100416 19], Dec 1702376454401511013 21);
  ([Dec 4350105548535699862 19; Dec 5399701272119999951 21], Dec 1702376454401511013 21);
  ([Dec 4350105548535699862 19; Dec 5595897438743100416 19], Dec 1702376454401511013 21);
  ([Dec 5595897438743100416 19; Dec 5399701272119999951 21], Dec 1702376454401511013 21);
  ([Dec 5595897438743100416 19; Dec 4350105548535699862 19], Dec 1702376454401511013 21);
  ([Dec 6384003033980000311 21; Dec 3203095992721999852 19], Dec 1679827163032025436 21);
  ([Dec 6384003033980000311 21; Dec 6733063976938199469 19], Dec 1679827163032025436 21);
  ([Dec 3203095992721999852 19; Dec 6384003033980000311 21], Dec 1679827163032025436 21);
  ([Dec 3203095992721999852 19; Dec 6733063976938199469 19], Dec 1679827163032025436 21);
  ([Dec 6733063976938199469 19; Dec 6384003033980000311 21], Dec 1679827163032025436 21);
  ([Dec 6733063976938199469 19; Dec 3203095992721999852 19], Dec 1679827163032025436 21);
  ([Dec 5028211501990000228 21; Dec 9175032228000999657 20], Dec 8580782697483770299 22);
  ([Dec 5028211501990000228 21; Dec 9032214662180000353 19], Dec 8580782697483770299 22);
  ([Dec 9175032228000999657 20; Dec 5028211501990000228 21], Dec 8580782697483770299 22);
  ([Dec 9175032228000999657 20; Dec 9032214662180000353 19], Dec 8580782697483770299 22);
  ([Dec 9032214662180000353 19; Dec 5028211501990000228 21], Dec 8580782697483770299 22);
  ([Dec 9032214662180000353 19; Dec 9175032228000999657 20], Dec 8580782697483770299 22);
  ([Dec 6826758621780000362 21; Dec 3801083585871999765 20], Dec 7404281583578030054 22);
  ([Dec 6826758621780000362 21; Dec 9551624055194900542 19], Dec 7404281583578030054 22);
  ([Dec 3801083585871999765 20; Dec 6826758621780000362 21], Dec 7404281583578030054 22);
  ([Dec 3801083585871999765 20; Dec 9551624055194900542 19], Dec 7404281583578030054 22);
  ([Dec 9551624055194900542 19; Dec 6826758621780000362 21], Dec 7404281583578030054 22);
  ([Dec 9551624055194900542 19; Dec 3801083585871999765 20], Dec 7404281583578030054 22);
  ([Dec 1001619963992999955 20; Dec 1574252184853099923 19], Dec 1755656305364342506 21);
  ([Dec 1001619963992999955 20; Dec 8325585818747599509 19], Dec 1755656305364342506 21);
  ([Dec 1574252184853099923 19; Dec 1001619963992999955 20], Dec 1755656305364342506 21);
  ([Dec 1574252184853099923 19; Dec 8325585818747599509 19], Dec 1755656305364342506 21);
  ([Dec 8325585818747599509 19; Dec 1001619963992999955 20], Dec 1755656305364342506 21);
  ([Dec 8325585818747599509 19; Dec 1574252184853099923 19], Dec 1755656305364342506 21);
  ([Dec 2575781317339000120 20; Dec 2398896597785299956 19], Dec 3696775074853241895 21);
  ([Dec 2575781317339000120 20; Dec 7343525270480799616 19], Dec 3696775074853241895 21);
  ([Dec 2398896597785299956 19; Dec 2575781317339000120 20], Dec 3696775074853241895 21);
  ([Dec 2398896597785299956 19; Dec 7343525270480799616 19], Dec 3696775074853241895 21);
  ([Dec 7343525270480799616 19; Dec 2575781317339000120 20], Dec 3696775074853241895 21);
  ([Dec 7343525270480799616 19; Dec 2398896597785299956 19], Dec 3696775074853241895 21);
  ([Dec 3022789811992000059 20; Dec 3619431181260600039 19], Dec 3991543738688279122 21);
  ([Dec 3022789811992000059 20; Dec 6078289837540199470 19], Dec 3991543738688279122 21);
  ([Dec 3619431181260600039 19; Dec 3022789811992000059 20], Dec 3991543738688279122 21);
  ([Dec 3619431181260600039 19; Dec 6078289837540199470 19], Dec 3991543738688279122 21);
  ([Dec 6078289837540199470 19; Dec 3022789811992000059 20], Dec 3991543738688279122 21);
  ([Dec 6078289837540199470 19; Dec 3619431181260600039 19], Dec 3991543738688279122 21);
  ([Dec 3050499010715999881 20; Dec 8355196095483000129 20], Dec 2177981306579020691 21);
  ([Dec 3050499010715999881 20; Dec 8859430489380100138 19], Dec 2177981306579020691 21);
  ([Dec 8355196095483000129 20; Dec 3050499010715999881 20], Dec 2177981306579020691 21);
  ([Dec 8355196095483000129 20; Dec 8859430489380100138 19], Dec 2177981306579020691 21);
  ([Dec 8859430489380100138 19; Dec 3050499010715999881 20], Dec 2177981306579020691 21);
  ([Dec 8859430489380100138 19; Dec 8355196095483000129 20], Dec 2177981306579020691 21);
  ([Dec 4595654736257000217 20; Dec 1484432207324200004 19], Dec 3682528350708915918 21);
  ([Dec 4595654736257000217 20; Dec 8056002319050099558 19], Dec 3682528350708915918 21);
  ([Dec 1484432207324200004 19; Dec 4595654736257000217 20], Dec 3682528350708915918 21);
  ([Dec 1484432207324200004 19; Dec 8056002319050099558 19], Dec 3682528350708915918 21);
  ([Dec 8056002319050099558 19; Dec 4595654736257000217 20], Dec 3682528350708915918 21);
  ([Dec 8056002319050099558 19; Dec 1484432207324200004 19], Dec 3682528350708915918 21);
  ([Dec 6744280054027999849 20; Dec 2837397087275300156 19], Dec 5481786423209775161 21);
  ([Dec 6744280054027999849 20; Dec 6488174907321899720 19], Dec 5481786423209775161 21);
  ([Dec 2837397087275300156 19; Dec 6744280054027999849 20], Dec 5481786423209775161 21);
  ([Dec 2837397087275300156 19; Dec 6488174907321899720 19], Dec 5481786423209775161 21);
  ([Dec 6488174907321899720 19; Dec 6744280054027999849 20], Dec 5481786423209775161 21);
  ([Dec 6488174907321899720 19; Dec 2837397087275300156 19], Dec 5481786423209775161 21);
  ([Dec 7004509141591000465 20; Dec 4068993751187899854 19], Dec 5874980871770560387 21);
  ([Dec 7004509141591000465 20; Dec 5230555334652999822 19], Dec 5874980871770560387 21);
  ([Dec 4068993751187899854 19; Dec 7004509141591000465 20], Dec 5874980871770560387 21);
  ([Dec 4068993751187899854 19; Dec 5230555334652999822 19], Dec 5874980871770560387 21);
  ([Dec 5230555334652999822 19; Dec 7004509141591000465 20], Dec 5874980871770560387 21);
  ([Dec 5230555334652999822 19; Dec 4068993751187899854 19], Dec 5874980871770560387 21);
  ([Dec 8391152464011999990 20; Dec 1941139870248899946 19], Dec 5007800356899285051 21);
  ([Dec 8391152464011999990 20; Dec 7219744883349900055 19], Dec 5007800356899285051 21);
  ([Dec 1941139870248899946 19; Dec 8391152464011999990 20], Dec 5007800356899285051 21);
  ([Dec 1941139870248899946 19; Dec 7219744883349900055 19], Dec 5007800356899285051 21);
  ([Dec 7219744883349900055 19; Dec 8391152464011999990 20], Dec 5007800356899285051 21);
  ([Dec 7219744883349900055 19; Dec 1941139870248899946 19], Dec 5007800356899285051 21);
  ([Dec 1203755356771499946 19; Dec 3241343470006999850 19], Dec 6654820393814340172 21);
  ([Dec 1203755356771499946 19; Dec 5554901173221400423 19], Dec 6654820393814340172 21);
  ([Dec 3241343470006999850 19; Dec 1203755356771499946 19], Dec 6654820393814340172 21);
  ([Dec 3241343470006999850 19; Dec 5554901173221400423 19], Dec 6654820393814340172 21);
  ([Dec 5554901173221400423 19; Dec 1203755356771499946 19], Dec 6654820393814340172 21);
  ([Dec 5554901173221400423 19; Dec 3241343470006999850 19], Dec 6654820393814340172 21);
  ([Dec 1480668991573700077 19; Dec 2292774835559799884 19], Dec 7077223252613069893 21);
  ([Dec 1480668991573700077 19; Dec 6226556172866499761 19], Dec 7077223252613069893 21);
  ([Dec 2292774835559799884 19; Dec 1480668991573700077 19], Dec 7077223252613069893 21);
  ([Dec 2292774835559799884 19; Dec 6226556172866499761 19], Dec 7077223252613069893 21);
  ([Dec 6226556172866499761 19; Dec 1480668991573700077 19], Dec 7077223252613069893 21);
  ([Dec 6226556172866499761 19; Dec 2292774835559799884 19], Dec 7077223252613069893 21);
  ([Dec 1917718658673299992 19; Dec 3256181225959799974 19], Dec 7440689780584004882 21);
  ([Dec 1917718658673299992 19; Dec 4826100115366899757 19], Dec 7440689780584004882 21);
  ([Dec 3256181225959799974 19; Dec 1917718658673299992 19], Dec 7440689780584004882 21);
  ([Dec 3256181225959799974 19; Dec 4826100115366899757 19], Dec 7440689780584004882 21);
  ([Dec 4826100115366899757 19; Dec 1917718658673299992 19], Dec 7440689780584004882 21);
  ([Dec 4826100115366899757 19; Dec 3256181225959799974 19], Dec 7440689780584004882 21)].

(** FillPointsAndWeights, order 24: Quadrature_Gauss2D_Triangle.cpp:3095-3475. *)
Definition Triangle_24 : rule := Rule true [
  ([Dec 2794648307316999897 20; Dec 4860267584634099802 19], Dec 4002790940010208555 21);
  ([Dec 4860267584634099802 19; Dec 2794648307316999897 20], Dec 4002790940010208555 21);
  ([Dec 4860267584634099802 19; Dec 4860267584634099802 19], Dec 4002790940010208555 21);
  ([Dec 1311786013276499963 19; Dec 4344106993361699920 19], Dec 7973538416195250639 21);
  ([Dec 4344106993361699920 19; Dec 1311786013276499963 19], Dec 7973538416195250639 21);
  ([Dec 4344106993361699920 19; Dec 4344106993361699920 19], Dec 7973538416195250639 21);
  ([Dec 2202217295120700025 19; Dec 3898891352439600166 19], Dec 6554570615397764879 21);
  ([Dec 3898891352439600166 19; Dec 2202217295120700025 19], Dec 6554570615397764879 21);
  ([Dec 3898891352439600166 19; Dec 3898891352439600166 19], Dec 6554570615397764879 21);
  ([Dec 4031135319603900147 19; Dec 2984432340197999967 19], Dec 9791500482817809894 21);
  ([Dec 2984432340197999967 19; Dec 4031135319603900147 19], Dec 9791500482817809894 21);
  ([Dec 2984432340197999967 19; Dec 2984432340197999967 19], Dec 9791500482817809894 21);
  ([Dec 5319116553252599688 19; Dec 2340441723373699878 19], Dec 8235442720768634817 21);
  ([Dec 2340441723373699878 19; Dec 5319116553252599688 19], Dec 8235442720768634817 21);
  ([Dec 2340441723373699878 19; Dec 2340441723373699878 19], Dec 8235442720768634817 21);
  ([Dec 6970633307819600333 19; Dec 1514683346090200111 19], Dec 4273639537046050076 21);
  ([Dec 1514683346090200111 19; Dec 6970633307819600333 19], Dec 4273639537046050076 21);
  ([Dec 1514683346090200111 19; Dec 1514683346090200111 19], Dec 4273639537046050076 21);
  ([Dec 7745322129080099982 19; Dec 1127338935459900049 19], Dec 4080942928613245924 21);
  ([Dec 1127338935459900049 19; Dec 7745322129080099982 19], Dec 4080942928613245924 21);
  ([Dec 1127338935459900049 19; Dec 1127338935459900049 19], Dec 4080942928613245924 21);
  ([Dec 8445686158169499747 19; Dec 7771569209152999480 20], Dec 3060573269991889549 21);
  ([Dec 7771569209152999480 20; Dec 8445686158169499747 19], Dec 3060573269991889549 21);
  ([Dec 7771569209152999480 20; Dec 7771569209152999480 20], Dec 3060573269991889549 21);
  ([Dec 9302138127714100202 19; Dec 3489309361429999978 20], Dec 1454249132468332434 21);
  ([Dec 3489309361429999978 20; Dec 9302138127714100202 19], Dec 1454249132468332434 21);
  ([Dec 3489309361429999978 20; Dec 3489309361429999978 20], Dec 1454249132468332434 21);
  ([Dec 9854836307581299470 19; Dec 7258184620930000115 21], Dec 3461376228309981438 22);
  ([Dec 7258184620930000115 21; Dec 9854836307581299470 19], Dec 3461376228309981438 22);
  ([Dec 7258184620930000115 21; Dec 7258184620930000115 21], Dec 3461376228309981438 22);
  ([Dec 1292352704439999906 21; Dec 2272144521533600026 19], Dec 6241445996386984834 22);
  ([Dec 1292352704439999906 21; Dec 7714931951421899470 19], Dec 6241445996386984834 22);
  ([Dec 2272144521533600026 19; Dec 1292352704439999906 21], Dec 6241445996386984834 22);
  ([Dec 2272144521533600026 19; Dec 7714931951421899470 19], Dec 6241445996386984834 22);
  ([Dec 7714931951421899470 19; Dec 1292352704439999906 21], Dec 6241445996386984834 22);
  ([Dec 7714931951421899470 19; Dec 2272144521533600026 19], Dec 6241445996386984834 22);
  ([Dec 5399701272119999951 21; Dec 4350105548535699862 19], Dec 1702376454401511013 21);
  ([Dec 5399701272119999951 21; Dec 5595897438743100416 19], Dec 1702376454401511013 21);
  ([Dec 4350105548535699862 19; Dec 5399701272119999951 21], Dec 1702376454401511013 21);
  ([Dec 4350105548535699862 19; Dec 5595897438743100416 19], Dec 1702376454401511013 21);
  ([Dec 5595897438743100416 19; Dec 5399701272119999951 21], Dec 1702376454401511013 21);
  ([Dec 5595897438743100416 19; Dec 4350105548535699862 19], Dec 1702376454401511013 21);
  ([Dec 6384003033980000311 21; Dec 3203095992721999852 19], Dec 1679827163032025436 21);
  ([Dec 6384003033980000311 21; Dec 6733063976938199469 19], Dec 1679827163032025436 21);
  ([Dec 3203095992721999852 19; Dec 6384003033980000311 21], Dec 1679827163032025436 21);
  ([Dec 3203095992721999852 19; Dec 6733063976938199469 19], Dec 1679827163032025436 21);
  ([Dec 6733063976938199469 19; Dec 6384003033980000311 21], Dec 1679827163032025436 21);
  ([Dec 6733063976938199469 19; Dec 3203095992721999852 19], Dec 1679827163032025436 21);
  ([Dec 5028211501990000228 21; Dec 9175032228000999657 20], Dec 8580782697483770299 22);
  ([Dec 5028211501990000228 21; Dec 9032214662180000353 19], Dec 8580782697483770299 22);
  ([Dec 9175032228000999657 20; Dec 5028211501990000228 21], Dec 8580782697483770299 22);
  ([Dec 9175032228000999657 20; Dec 9032214662180000353 19], Dec 8580782697483770299 22);
  ([Dec 9032214662180000353 19; Dec 5028211501990000228 21], Dec 8580782697483770299 22);
  ([Dec 9032214662180000353 19; Dec 9175032228000999657 20], Dec 8580782697483770299 22);
  ([Dec 6826758621780000362 21; Dec 3801083585871999765 20], Dec 7404281583578030054 22);
  ([Dec 6826758621780000362 21; Dec 9551624055194900542 19], Dec 7404281583578030054 22);
  ([Dec 3801083585871999765 20; Dec 6826758621780000362 21], Dec 7404281583578030054 22);
  ([Dec 3801083585871999765 20; Dec 9551624055194900542 19], Dec 7404281583578030054 22);
  ([Dec 9551624055194900542 19; Dec 6826758621780000362 21], Dec 7404281583578030054 22);
  ([Dec 9551624055194900542 19; Dec 3801083585871999765 20], Dec 7404281583578030054 22);
  ([Dec 1001619963992999955 20; Dec 1574252184853099923 19], Dec 1755656305364342506 21);
  ([Dec 1001619963992999955 20; Dec 8325585818747599509 19], Dec 1755656305364342506 21);
  ([Dec 1574252184853099923 19; Dec 1001619963992999955 20], Dec 1755656305364342506 21);
  ([Dec 1574252184853099923 19; Dec 8325585818747599509 19], Dec 1755656305364342506 21);
  ([Dec 8325585818747599509 19; Dec 1001619963992999955 20], Dec 1755656305364342506 21);
  ([Dec 8325585818747599509 19; Dec 1574252184853099923 19], Dec 1755656305364342506 21);
  ([Dec 2575781317339000120 20; Dec 2398896597785299956 19], Dec 3696775074853241895 21);
  ([Dec 2575781317339000120 20; Dec 7343525270480799616 19], Dec 3696775074853241895 21);
  ([Dec 2398896597785299956 19; Dec 2575781317339000120 20], Dec 3696775074853241895 21);
  ([Dec 2398896597785299956 19; Dec 7343525270480799616 19], Dec 3696775074853241895 21);
  ([Dec 7343525270480799616 19; Dec 2575781317339000120 20], Dec 3696775074853241895 21);
  ([Dec 7343525270480799616 19; Dec 2398896597785299956 19], Dec 3696775074853241895 21);
  ([Dec 3022789811992000059 20; Dec 3619431181260600039 19], Dec 3991543738688279122 21);
  ([Dec 3022789811992000059 20; Dec 6078289837540199470 19], Dec 3991543738688279122 21);
  ([Dec 3619431181260600039 19; Dec 3022789811992000059 20], Dec 3991543738688279122 21);
  ([Dec 3619431181260600039 19; Dec 6078289837540199470 19], Dec 3991543738688279122 21);
  ([Dec 6078289837540199470 19; Dec 3022789811992000059 20], Dec 3991543738688279122 21);
  ([Dec 6078289837540199470 19; Dec 3619431181260600039 19], Dec 3991543738688279122 21);
  ([Dec 3050499010715999881 20; Dec 8355196095483000129 20], Dec 2177981306579020691 21);
  ([Dec 3050499010715999881 20; Dec 8859430489380100138 19], Dec 2177981306579020691 21);
  ([Dec 8355196095483000129 20; Dec 3050499010715999881 20], Dec 2177981306579020691 21);
  ([Dec 8355196095483000129 20; Dec 8859430489380100138 19], Dec 2177981306579020691 21);
  ([Dec 8859430489380100138 19; Dec 3050499010715999881 20], Dec 2177981306579020691 21);
  ([Dec 8859430489380100138 19; Dec 8355196095483000129 20], Dec 2177981306579020691 21);
  ([Dec 4595654736257000217 20; Dec 1484432207324200004 19], Dec 3682528350708915918 21);
  ([Dec 4595654736257000217 20; Dec 8056002319050099558 19], Dec 3682528350708915918 21);
  ([Dec 1484432207324200004 19; Dec 4595654736257000217 20], Dec 3682528350708915918 21);
  ([Dec 1484432207324200004 19; Dec 8056002319050099558 19], Dec 3682528350708915918 21);
  ([Dec 8056002319050099558 19; Dec 4595654736257000217 20], Dec 3682528350708915918 21);
  ([Dec 8056002319050099558 19; Dec 1484432207324200004 19], Dec 3682528350708915918 21);
  ([Dec 6744280054027999849 20; Dec 2837397087275300156 19], Dec 5481786423209775161 21);
  ([Dec 6744280054027999849 20; Dec 6488174907321899720 19], Dec 5481786423209775161 21);
  ([Dec 2837397087275300156 19; Dec 6744280054027999849 20], Dec 5481786423209775161 21);
  ([Dec 2837397087275300156 19; Dec 6488174907321899720 19], Dec 5481786423209775161 21);
  ([Dec 6488174907321899720 19; Dec 6744280054027999849 20], Dec 5481786423209775161 21);
  ([Dec 6488174907321899720 19; Dec 2837397087275300156 19], Dec 5481786423209775161 21);
  ([Dec 7004509141591000465 20; Dec 4068993751187899854 19], Dec 5874980871770560387 21);
  ([Dec 7004509141591000465 20; Dec 5230555334652999822 19], Dec 5874980871770560387 21);
  ([Dec 4068993751187899854 19; Dec 7004509141591000465 20], Dec 5874980871770560387 21);
  ([Dec 4068993751187899854 19; Dec 5230555334652999822 19], Dec 5874980871770560387 21);
  ([Dec 5230555334652999822 19; Dec 7004509141591000465 20], Dec 5874980871770560387 21);
  ([Dec 5230555334652999822 19; Dec 4068993751187899854 19], Dec 5874980871770560387 21);
  ([Dec 8391152464011999990 20; Dec 1941139870248899946 19], Dec 5007800356899285051 21);
  ([Dec 8391152464011999990 20; Dec 7219744883349900055 19], Dec 5007800356899285051 21);
  ([Dec 1941139870248899946 19; Dec 8391152464011999990 20], Dec 5007800356899285051 21);
  ([Dec 1941139870248899946 19; Dec 7219744883349900055 19], Dec 5007800356899285051 21);
  ([Dec 7219744883349900055 19; Dec 8391152464011999990 20], Dec 5007800356899285051 21);
  ([Dec 7219744883349900055 19; Dec 1941139870248899946 19], Dec 5007800356899285051 21);
  ([Dec 1203755356771499946 19; Dec 3241343470006999850 19], Dec 6654820393814340172 21);
  ([Dec 1203755356771499946 19; Dec 5554901173221400423 19], Dec 6654820393814340172 21);
  ([Dec 3241343470006999850 19; Dec 1203755356771499946 19], Dec 6654820393814340172 21);
  ([Dec 3241343470006999850 19; Dec 5554901173221400423 19], Dec 6654820393814340172 21);
  ([Dec 5554901173221400423 19; Dec 1203755356771499946 19], Dec 6654820393814340172 21);
  ([Dec 5554901173221400423 19; Dec 3241343470006999850 19], Dec 6654820393814340172 21);
  ([Dec 1480668991573700077 19; Dec 2292774835559799884 19], Dec 7077223252613069893 21);
  ([Dec 1480668991573700077 19; Dec 6226556172866499761 19], Dec 7077223252613069893 21);
  ([Dec 2292774835559799884 19; Dec 1480668991573700077 19], Dec 7077223252613069893 21);
  ([Dec 2292774835559799884 19; Dec 6226556172866499761 19], Dec 7077223252613069893 21);
  ([Dec 6226556172866499761 19; Dec 1480668991573700077 19], Dec 7077223252613069893 21);
  ([Dec 6226556172866499761 19; Dec 2292774835559799884 19], Dec 7077223252613069893 21);
  ([Dec 1917718658673299992 19; Dec 3256181225959799974 19], Dec 7440689780584004882 21);
  ([Dec 1917718658673299992 19; Dec 4826100115366899757 19], Dec 7440689780584004882 21);
  ([Dec 3256181225959799974 19; Dec 1917718658673299992 19], Dec 7440689780584004882 21);
  ([Dec 3256181225959799974 19; Dec 4826100115366899757 19], Dec 7440689780584004882 21);
  ([Dec 4826100115366899757 19; Dec 1917718658673299992 19], Dec 7440689780584004882 21);
  ([Dec 4826100115366899757 19; Dec 3256181225959799974 19], Dec 7440689780584004882 21)].

(** FillPointsAndWeights, order 25: Quadrature_Gauss2D_Triangle.cpp:3478-3858. *)
Definition Triangle_25 : rule := Rule true [
  ([Dec 2794648307316999897 20; Dec 4860267584634099802 19], Dec 4002790940010208555 21);
  ([Dec 4860267584634099802 19; Dec 2794648307316999897 20], Dec 4002790940010208555 21);
  ([Dec 4860267584634099802 19; Dec 4860267584634099802 19], Dec 4002790940010208555 21);
  ([Dec 1311786013276499963 19; Dec 4344106993361699920 19], Dec 7973538416195250639 21);
  ([Dec 4344106993361699920 19; Dec 1311786013276499963 19], Dec 7973538416195250639 21);
  ([Dec 4344106993361699920 19; Dec 4344106993361699920 19], Dec 7973538416195250639 21);
  ([Dec 2202217295120700025 19; Dec 3898891352439600166 19], Dec 6554570615397764879 21);
  ([Dec 3898891352439600166 19; Dec 2202217295120700025 19], Dec 6554570615397764879 21);
  ([Dec 3898891352439600166 19; Dec 3898891352439600166 19], Dec 6554570615397764879 21);
  ([Dec 4031135319603900147 19; Dec 2984432340197999967 19], Dec 9791500482817809894 21);
  ([Dec 2984432340197999967 19; Dec 4031135319603900147 19], Dec 9791500482817809894 21);
  ([Dec 2984432340197999967 19; Dec 2984432340197999967 19], Dec 9791500482817809894 21);
  ([Dec 5319116553252599688 19; Dec 2340441723373699878 19], Dec 8235442720768634817 21);
  ([Dec 2340441723373699878 19; Dec 5319116553252599688 19], Dec 8235442720768634817 21);
  ([Dec 2340441723373699878 19; Dec 2340441723373699878 19], Dec 8235442720768634817 21);
  ([Dec 6970633307819600333 19; Dec 1514683346090200111 19], Dec 4273639537046050076 21);
  ([Dec 1514683346090200111 19; Dec 6970633307819600333 19], Dec 4273639537046050076 21);
  ([Dec 1514683346090200111 19; Dec 1514683346090200111 19], Dec 4273639537046050076 21);
  ([Dec 7745322129080099982 19; Dec 1127338935459900049 19], Dec 4080942928613245924 21);
  ([Dec 1127338935459900049 19; Dec 7745322129080099982 19], Dec 4080942928613245924 21);
  ([Dec 1127338935459900049 19; Dec 1127338935459900049 19], Dec 4080942928613245924 21);
  ([Dec 8445686158169499747 19; Dec 7771569209152999480 20], Dec 3060573269991889549 21);
  ([Dec 7771569209152999480 20; Dec 8445686158169499747 19], Dec 3060573269991889549 21);
  ([Dec 7771569209152999480 20; Dec 7771569209152999480 20], Dec 3060573269991889549 21);
  ([Dec 9302138127714100202 19; Dec 3489309361429999978 20], Dec 1454249132468332434 21);
  ([Dec 3489309361429999978 20; Dec 9302138127714100202 19], Dec 1454249132468332434 21);
  ([Dec 3489309361429999978 20; Dec 3489309361429999978 20], Dec 1454249132468332434 21);
  ([Dec 9854836307581299470 19; Dec 7258184620930000115 21], Dec 3461376228309981438 22);
  ([Dec 7258184620930000115 21; Dec 9854836307581299470 19], Dec 3461376228309981438 22);
  ([Dec 7258184620930000115 21; Dec 7258184620930000115 21], Dec 3461376228309981438 22);
  ([Dec 1292352704439999906 21; Dec 2272144521533600026 19], Dec 6241445996386984834 22);
  ([Dec 1292352704439999906 21; Dec 7714931951421899470 19], Dec 6241445996386984834 22);
  ([Dec 2272144521533600026 19; Dec 1292352704439999906 21], Dec 6241445996386984834 22);
  ([Dec 2272144521533600026 19; Dec 7714931951421899470 19], Dec 6241445996386984834 22);
  ([Dec 7714931951421899470 19; Dec 1292352704439999906 21], Dec 6241445996386984834 22);
  ([Dec 7714931951421899470 19; Dec 2272144521533600026 19], Dec 6241445996386984834 22);
  ([Dec 5399701272119999951 21; Dec 4350105548535699862 19], Dec 1702376454401511013 21);
  ([Dec 5399701272119999951 21; Dec 5595897438743100416 19], Dec 1702376454401511013 21);
  ([Dec 4350105548535699862 19; Dec 5399701272119999951 21], Dec 1702376454401511013 21);
  ([Dec 4350105548535699862 19; Dec 5595897438743100416 19], Dec 1702376454401511013 21);
  ([Dec 5595897438743100416 19; Dec 5399701272119999951 21], Dec 1702376454401511013 21);
  ([Dec 5595897438743100416 19; Dec 4350105548535699862 19], Dec 1702376454401511013 21);
  ([Dec 6384003033980000311 21; Dec 3203095992721999852 19], Dec 1679827163032025436 21);
  ([Dec 6384003033980000311 21; Dec 6733063976938199469 19], Dec 1679827163032025436 21);
  ([Dec 3203095992721999852 19; Dec 6384003033980000311 21], Dec 1679827163032025436 21);
  ([Dec 3203095992721999852 19; Dec 6733063976938199469 19], Dec 1679827163032025436 21);
  ([Dec 6733063976938199469 19; Dec 6384003033980000311 21], Dec 1679827163032025436 21);
  ([Dec 6733063976938199469 19; Dec 3203095992721999852 19], Dec 1679827163032025436 21);
  ([Dec 5028211501990000228 21; Dec 9175032228000999657 20], Dec 8580782697483770299 22);
  ([Dec 5028211501990000228 21; Dec 9032214662180000353 19], Dec 8580782697483770299 22);
  ([Dec 9175032228000999657 20; Dec 5028211501990000228 21], Dec 8580782697483770299 22);
  ([Dec 9175032228000999657 20; Dec 9032214662180000353 19], Dec 8580782697483770299 22);
  ([Dec 9032214662180000353 19; Dec 5028211501990000228 21], Dec 8580782697483770299 22);
  ([Dec 9032214662180000353 19; Dec 9175032228000999657 20], Dec 8580782697483770299 22);
  ([Dec 6826758621780000362 21; Dec 3801083585871999765 20], Dec 7404281583578030054 22);
  ([Dec 6826758621780000362 21; Dec 9551624055194900542 19], Dec 7404281583578030054 22);
  ([Dec 3801083585871999765 20; Dec 6826758621780000362 21], Dec 7404281583578030054 22);
  ([Dec 3801083585871999765 20; Dec 9551624055194900542 19], Dec 7404281583578030054 22);
  ([Dec 9551624055194900542 19; Dec 6826758621780000362 21], Dec 7404281583578030054 22);
  ([Dec 9551624055194900542 19; Dec 3801083585871999765 20], Dec 7404281583578030054 22);
  ([Dec 1001619963992999955 20; Dec 1574252184853099923 19], Dec 1755656305364342506 21);
  ([Dec 1001619963992999955 20; Dec 8325585818747599509 19], Dec 1755656305364342506 21);
  ([Dec 1574252184853099923 19; Dec 1001619963992999955 20], Dec 1755656305364342506 21);
  ([Dec 1574252184853099923 19; Dec 8325585818747599509 19], Dec 1755656305364342506 21);
  ([Dec 8325585818747599509 19; Dec 1001619963992999955 20], Dec 1755656305364342506 21);
  ([Dec 8325585818747599509 19; Dec 1574252184853099923 19], Dec 1755656305364342506 21);
  ([Dec 2575781317339000120 20; Dec 2398896597785299956 19], Dec 3696775074853241895 21);
  ([Dec 2575781317339000120 20; Dec 7343525270480799616 19], Dec 3696775074853241895 21);
  ([Dec 2398896597785299956 19; Dec 2575781317339000120 20], Dec 3696775074853241895 21);
  ([Dec 2398896597785299956 19; Dec 7343525270480799616 19], Dec 3696775074853241895 21);
  ([Dec 7343525270480799616 19; Dec 2575781317339000120 20], Dec 3696775074853241895 21);
  ([Dec 7343525270480799616 19; Dec 2398896597785299956 19], Dec 3696775074853241895 21);
  ([Dec 3022789811992000059 20; Dec 3619431181260600039 19], Dec 3991543738688279122 21);
  ([Dec 3022789811992000059 20; Dec 6078289837540199470 19], Dec 3991543738688279122 21);
  ([Dec 3619431181260600039 19; Dec 3022789811992000059 20], Dec 3991543738688279122 21);
  ([Dec 3619431181260600039 19; Dec 6078289837540199470 19], Dec 3991543738688279122 21);
  ([Dec 6078289837540199470 19; Dec 3022789811992000059 20], Dec 3991543738688279122 21);
  ([Dec 6078289837540199470 19; Dec 3619431181260600039 19], Dec 3991543738688279122 21);
  ([Dec 3050499010715999881 20; Dec 8355196095483000129 20], Dec 2177981306579020691 21);
  ([Dec 3050499010715999881 20; Dec 8859430489380100138 19], Dec 2177981306579020691 21);
  ([Dec 8355196095483000129 20; Dec 3050499010715999881 20], Dec 2177981306579020691 21);
  ([Dec 8355196095483000129 20; Dec 8859430489380100138 19], Dec 2177981306579020691 21);
  ([Dec 8859430489380100138 19; Dec 3050499010715999881 20], Dec 2177981306579020691 21);
  ([Dec 8859430489380100138 19; Dec 8355196095483000129 20], Dec 2177981306579020691 21);
  ([Dec 4595654736257000217 20; Dec 1484432207324200004 19], Dec 3682528350708915918 21);
  ([Dec 4595654736257000217 20; Dec 8056002319050099558 19], Dec 3682528350708915918 21);
  ([Dec 1484432207324200004 19; Dec 4595654736257000217 20], Dec 3682528350708915918 21);
  ([Dec 1484432207324200004 19; Dec 8056002319050099558 19], Dec 3682528350708915918 21);
  ([Dec 8056002319050099558 19; Dec 4595654736257000217 20], Dec 3682528350708915918 21);
  ([Dec 8056002319050099558 19; Dec 1484432207324200004 19], Dec 3682528350708915918 21);
  ([Dec 6744280054027999849 20; Dec 2837397087275300156 19], Dec 5481786423209775161 21);
  ([Dec 6744280054027999849 20; Dec 6488174907321899720 19], Dec 5481786423209775161 21);
  ([Dec 2837397087275300156 19; Dec 6744280054027999849 20], Dec 5481786423209775161 21);
  ([Dec 2837397087275300156 19; Dec 6488174907321899720 19], Dec 5481786423209775161 21);
  ([Dec 6488174907321899720 19; Dec 6744280054027999849 20], Dec 5481786423209775161 21);
  ([Dec 6488174907321899720 19; Dec 2837397087275300156 19], Dec 5481786423209775161 21);
  ([Dec 7004509141591000465 20; Dec 4068993751187899854 19], Dec 5874980871770560387 21);
  ([Dec 7004509141591000465 20; Dec 5230555334652999822 19], Dec 5874980871770560387 21);
  ([Dec 4068993751187899854 19; Dec 7004509141591000465 20], Dec 5874980871770560387 21);
  ([Dec 4068993751187899854 19; Dec 5230555334652999822 19], Dec 5874980871770560387 21);
  ([Dec 5230555334652999822 19; Dec 7004509141591000465 20], Dec 5874980871770560387 21);
  ([Dec 5230555334652999822 19; Dec 4068993751187899854 19], Dec 5874980871770560387 21);
  ([Dec 8391152464011999990 20; Dec 1941139870248899946 19], Dec 5007800356899285051 21);
  ([Dec 8391152464011999990 20; Dec 7219744883349900055 19], Dec 5007800356899285051 21);
  ([Dec 1941139870248899946 19; Dec 8391152464011999990 20], Dec 5007800356899285051 21);
  ([Dec 1941139870248899946 19; Dec 7219744883349900055 19], Dec 5007800356899285051 21);
  ([Dec 7219744883349900055 19; Dec 8391152464011999990 20], Dec 5007800356899285051 21);
  ([Dec 7219744883349900055 19; Dec 1941139870248899946 19], Dec 5007800356899285051 21);
  ([Dec 1203755356771499946 19; Dec 3241343470006999850 19], Dec 6654820393814340172 21);
  ([Dec 1203755356771499946 19; Dec 5554901173221400423 19], Dec 6654820393814340172 21);
  ([Dec 3241343470006999850 19; Dec 1203755356771499946 19], Dec 6654820393814340172 21);
  ([Dec 3241343470006999850 19; Dec 5554901173221400423 19], Dec 6654820393814340172 21);
  ([Dec 5554901173221400423 19; Dec 1203755356771499946 19], Dec 6654820393814340172 21);
  ([Dec 5554901173221400423 19; Dec 3241343470006999850 19], Dec 6654820393814340172 21);
  ([Dec 1480668991573700077 19; Dec 2292774835559799884 19], Dec 7077223252613069893 21);
  ([Dec 1480668991573700077 19; Dec 6226556172866499761 19], Dec 7077223252613069893 21);
  ([Dec 2292774835559799884 19; Dec 1480668991573700077 19], Dec 7077223252613069893 21);
  ([Dec 2292774835559799884 19; Dec 6226556172866499761 19], Dec 7077223252613069893 21);
  ([Dec 6226556172866499761 19; Dec 1480668991573700077 19], Dec 7077223252613069893 21);
  ([Dec 6226556172866499761 19; Dec 2292774835559799884 19], Dec 7077223252613069893 21);
  ([Dec 1917718658673299992 19; Dec 3256181225959799974 19], Dec 7440689780584004882 21);
  ([Dec 1917718658673299992 19; Dec 4826100115366899757 19], Dec 7440689780584004882 21);
  ([Dec 3256181225959799974 19; Dec 1917718658673299992 19], Dec 7440689780584004882 21);
  ([Dec 3256181225959799974 19; Dec 4826100115366899757 19], Dec 7440689780584004882 21);
  ([Dec 4826100115366899757 19; Dec 1917718658673299992 19], Dec 7440689780584004882 21);
  ([Dec 4826100115366899757 19; Dec 3256181225959799974 19], Dec 7440689780584004882 21)].

(** FillPointsAndWeights, order 26: Quadrature_Gauss2D_Triangle.cpp:3861-4388. *)
Definition Triangle_26 : rule := Rule true [
  ([Dec 3333333333333299842 19; Dec 3333333333333299842 19], Dec 7789980101449599757 21);
  ([Dec 7330116432769999760 21; Dec 4963349417836199762 19], Dec 1588616850267066984 21);
  ([Dec 4963349417836199762 19; Dec 7330116432769999760 21], Dec 1588616850267066984 21);
  ([Dec 4963349417836199762 19; Dec 4963349417836199762 19], Dec 1588616850267066984 21);
  ([Dec 8299567580295999503 20; Dec 4585021620985200164 19], Dec 5241713317865385330 21);
  ([Dec 4585021620985200164 19; Dec 8299567580295999503 20], Dec 5241713317865385330 21);
  ([Dec 4585021620985200164 19; Dec 4585021620985200164 19], Dec 5241713317865385330 21);
  ([Dec 1509809561254099874 19; Dec 4245095219372900242 19], Dec 6604729788871815249 21);
  ([Dec 4245095219372900242 19; Dec 1509809561254099874 19], Dec 6604729788871815249 21);
  ([Dec 4245095219372900242 19; Dec 4245095219372900242 19], Dec 6604729788871815249 21);
  ([Dec 2359058598921700001 19; Dec 3820470700539200237 19], Dec 7487503483135749677 21);
  ([Dec 3820470700539200237 19; Dec 2359058598921700001 19], Dec 7487503483135749677 21);
  ([Dec 3820470700539200237 19; Dec 3820470700539200237 19], Dec 7487503483135749677 21);
  ([Dec 4380243084078500049 19; Dec 2809878457960799936 19], Dec 7493952221692095142 21);
  ([Dec 2809878457960799936 19; Dec 4380243084078500049 19], Dec 7493952221692095142 21);
  ([Dec 2809878457960799936 19; Dec 2809878457960799936 19], Dec 7493952221692095142 21);
  ([Dec 5453020482919299639 19; Dec 2273489758540299943 19], Dec 6669432370510829794 21);
  ([Dec 2273489758540299943 19; Dec 5453020482919299639 19], Dec 6669432370510829794 21);
  ([Dec 2273489758540299943 19; Dec 2273489758540299943 19], Dec 6669432370510829794 21);
  ([Dec 6508817769825400168 19; Dec 1745591115087299916 19], Dec 5444585556951005330 21);
  ([Dec 1745591115087299916 19; Dec 6508817769825400168 19], Dec 5444585556951005330 21);
  ([Dec 1745591115087299916 19; Dec 1745591115087299916 19], Dec 5444585556951005330 21);
  ([Dec 7534831455971300329 19; Dec 1232584272014399934 19], Dec 4094720330446730353 21);
  ([Dec 1232584272014399934 19; Dec 7534831455971300329 19], Dec 4094720330446730353 21);
  ([Dec 1232584272014399934 19; Dec 1232584272014399934 19], Dec 4094720330446730353 21);
  ([Dec 8398315422156099608 19; Dec 8008422889220000174 20], Dec 2787693794303892567 21);
  ([Dec 8008422889220000174 20; Dec 8398315422156099608 19], Dec 2787693794303892567 21);
  ([Dec 8008422889220000174 20; Dec 8008422889220000174 20], Dec 2787693794303892567 21);
  ([Dec 9044510651842000426 19; Dec 4777446740789999952 20], Dec 1595608236705988022 21);
  ([Dec 4777446740789999952 20; Dec 9044510651842000426 19], Dec 1595608236705988022 21);
  ([Dec 4777446740789999952 20; Dec 4777446740789999952 20], Dec 1595608236705988022 21);
  ([Dec 9565589706397199521 19; Dec 2172051468013999967 20], Dec 6483575721635225202 22);
  ([Dec 2172051468013999967 20; Dec 9565589706397199521 19], Dec 6483575721635225202 22);
  ([Dec 2172051468013999967 20; Dec 2172051468013999967 20], Dec 6483575721635225202 22);
  ([Dec 9904706447691300486 19; Dec 4764677615440000326 21], Dec 1491314130674585938 22);
  ([Dec 4764677615440000326 21; Dec 9904706447691300486 19], Dec 1491314130674585938 22);
  ([Dec 4764677615440000326 21; Dec 4764677615440000326 21], Dec 1491314130674585938 22);
  ([Dec 9253711933499999924 22; Dec 4152952709133099773 19], Dec 4994528425394482041 22);
  ([Dec 9253711933499999924 22; Dec 5837793578933400118 19], Dec 4994528425394482041 22);
  ([Dec 4152952709133099773 19; Dec 9253711933499999924 22], Dec 4994528425394482041 22);
  ([Dec 4152952709133099773 19; Dec 5837793578933400118 19], Dec 4994528425394482041 22);
  ([Dec 5837793578933400118 19; Dec 9253711933499999924 22], Dec 4994528425394482041 22);
  ([Dec 5837793578933400118 19; Dec 4152952709133099773 19], Dec 4994528425394482041 22);
  ([Dec 1385925855560000107 21; Dec 6118990978535000097 20], Dec 2314254245866266546 22);
  ([Dec 1385925855560000107 21; Dec 9374241643590900397 19], Dec 2314254245866266546 22);
  ([Dec 6118990978535000097 20; Dec 1385925855560000107 21], Dec 2314254245866266546 22);
  ([Dec 6118990978535000097 20; Dec 9374241643590900397 19], Dec 2314254245866266546 22);
  ([Dec 9374241643590900397 19; Dec 1385925855560000107 21], Dec 2314254245866266546 22);
  ([Dec 9374241643590900397 19; Dec 6118990978535000097 20], Dec 2314254245866266546 22);
  ([Dec 3682415455909999937 21; Dec 1649086901369100078 19], Dec 6172256681912064672 22);
  ([Dec 3682415455909999937 21; Dec 8314088944071800213 19], Dec 6172256681912064672 22);
  ([Dec 1649086901369100078 19; Dec 3682415455909999937 21], Dec 6172256681912064672 22);
  ([Dec 1649086901369100078 19; Dec 8314088944071800213 19], Dec 6172256681912064672 22);
  ([Dec 8314088944071800213 19; Dec 3682415455909999937 21], Dec 6172256681912064672 22);
  ([Dec 8314088944071800213 19; Dec 1649086901369100078 19], Dec 6172256681912064672 22);
  ([Dec 3903223424160000028 21; Dec 2503506223199999936 20], Dec 2853599261216030751 22);
  ([Dec 3903223424160000028 21; Dec 9710617143438400323 19], Dec 2853599261216030751 22);
  ([Dec 2503506223199999936 20; Dec 3903223424160000028 21], Dec 2853599261216030751 22);
  ([Dec 2503506223199999936 20; Dec 9710617143438400323 19], Dec 2853599261216030751 22);
  ([Dec 9710617143438400323 19; Dec 3903223424160000028 21], Dec 2853599261216030751 22);
  ([Dec 9710617143438400323 19; Dec 2503506223199999936 20], Dec 2853599261216030751 22);
  ([Dec 3233248155009999826 21; Dec 3060644651510999736 19], Dec 5634730629388120301 22);
  ([Dec 3233248155009999826 21; Dec 6907022866938899996 19], Dec 5634730629388120301 22);
  ([Dec 3060644651510999736 19; Dec 3233248155009999826 21], Dec 5634730629388120301 22);
  ([Dec 3060644651510999736 19; Dec 6907022866938899996 19], Dec 5634730629388120301 22);
  ([Dec 6907022866938899996 19; Dec 3233248155009999826 21], Dec 5634730629388120301 22);
  ([Dec 6907022866938899996 19; Dec 3060644651510999736 19], Dec 5634730629388120301 22);
  ([Dec 6467432112239999802 21; Dec 1070732837302200008 19], Dec 8739334747036685410 22);
  ([Dec 6467432112239999802 21; Dec 8864592841575400506 19], Dec 8739334747036685410 22);
  ([Dec 1070732837302200008 19; Dec 6467432112239999802 21], Dec 8739334747036685410 22);
  ([Dec 1070732837302200008 19; Dec 8864592841575400506 19], Dec 8739334747036685410 22);
  ([Dec 8864592841575400506 19; Dec 6467432112239999802 21], Dec 8739334747036685410 22);
  ([Dec 8864592841575400506 19; Dec 1070732837302200008 19], Dec 8739334747036685410 22);
  ([Dec 3247475491329999790 21; Dec 2299575493455799924 19], Dec 5914094075158284709 22);
  ([Dec 3247475491329999790 21; Dec 7667949751630800392 19], Dec 5914094075158284709 22);
  ([Dec 2299575493455799924 19; Dec 3247475491329999790 21], Dec 5914094075158284709 22);
  ([Dec 2299575493455799924 19; Dec 7667949751630800392 19], Dec 5914094075158284709 22);
  ([Dec 7667949751630800392 19; Dec 3247475491329999790 21], Dec 5914094075158284709 22);
  ([Dec 7667949751630800392 19; Dec 2299575493455799924 19], Dec 5914094075158284709 22);
  ([Dec 8675090806750000022 21; Dec 3370366333057799868 19], Dec 9954196473375169149 22);
  ([Dec 8675090806750000022 21; Dec 6542882758874599691 19], Dec 9954196473375169149 22);
  ([Dec 3370366333057799868 19; Dec 8675090806750000022 21], Dec 9954196473375169149 22);
  ([Dec 3370366333057799868 19; Dec 6542882758874599691 19], Dec 9954196473375169149 22);
  ([Dec 6542882758874599691 19; Dec 8675090806750000022 21], Dec 9954196473375169149 22);
  ([Dec 6542882758874599691 19; Dec 3370366333057799868 19], Dec 9954196473375169149 22);
  ([Dec 1559702646730999967 20; Dec 5625657618206000160 20], Dec 9502063975179899768 22);
  ([Dec 1559702646730999967 20; Dec 9281463973506299814 19], Dec 9502063975179899768 22);
  ([Dec 5625657618206000160 20; Dec 1559702646730999967 20], Dec 9502063975179899768 22);
  ([Dec 5625657618206000160 20; Dec 9281463973506299814 19], Dec 9502063975179899768 22);
  ([Dec 9281463973506299814 19; Dec 1559702646730999967 20], Dec 9502063975179899768 22);
  ([Dec 9281463973506299814 19; Dec 5625657618206000160 20], Dec 9502063975179899768 22);
  ([Dec 1797672125369000062 20; Dec 4024513752123999866 19], Dec 2249182904408725606 21);
  ([Dec 1797672125369000062 20; Dec 5795719035339099712 19], Dec 2249182904408725606 21);
  ([Dec 4024513752123999866 19; Dec 1797672125369000062 20], Dec 2249182904408725606 21);
  ([Dec 4024513752123999866 19; Dec 5795719035339099712 19], Dec 2249182904408725606 21);
  ([Dec 5795719035339099712 19; Dec 1797672125369000062 20], Dec 2249182904408725606 21);
  ([Dec 5795719035339099712 19; Dec 4024513752123999866 19], Dec 2249182904408725606 21);
  ([Dec 1712424535389000038 20; Dec 2436547020108300043 19], Dec 1739359730137359427 21);
  ([Dec 1712424535389000038 20; Dec 7392210526352800404 19], Dec 1739359730137359427 21);
  ([Dec 2436547020108300043 19; Dec 1712424535389000038 20], Dec 1739359730137359427 21);
  ([Dec 2436547020108300043 19; Dec 7392210526352800404 19], Dec 1739359730137359427 21);
  ([Dec 7392210526352800404 19; Dec 1712424535389000038 20], Dec 1739359730137359427 21);
  ([Dec 7392210526352800404 19; Dec 2436547020108300043 19], Dec 1739359730137359427 21);
  ([Dec 2288340534657999983 20; Dec 1653895856145299881 19], Dec 2051199518361976684 21);
  ([Dec 2288340534657999983 20; Dec 8117270090388799542 19], Dec 2051199518361976684 21);
  ([Dec 1653895856145299881 19; Dec 2288340534657999983 20], Dec 2051199518361976684 21);
  ([Dec 1653895856145299881 19; Dec 8117270090388799542 19], Dec 2051199518361976684 21);
  ([Dec 8117270090388799542 19; Dec 2288340534657999983 20], Dec 2051199518361976684 21);
  ([Dec 8117270090388799542 19; Dec 1653895856145299881 19], Dec 2051199518361976684 21);
  ([Dec 3273759728777000250 20; Dec 9930187449584999826 20], Dec 2010880774872081042 21);
  ([Dec 3273759728777000250 20; Dec 8679605282163900259 19], Dec 2010880774872081042 21);
  ([Dec 9930187449584999826 20; Dec 3273759728777000250 20], Dec 2010880774872081042 21);
  ([Dec 9930187449584999826 20; Dec 8679605282163900259 19], Dec 2010880774872081042 21);
  ([Dec 8679605282163900259 19; Dec 3273759728777000250 20], Dec 2010880774872081042 21);
  ([Dec 8679605282163900259 19; Dec 9930187449584999826 20], Dec 2010880774872081042 21);
  ([Dec 3382101234234000109 20; Dec 3084783330690499814 19], Dec 3016582330397532975 21);
  ([Dec 3382101234234000109 20; Dec 6577006545886000533 19], Dec 3016582330397532975 21);
  ([Dec 3084783330690499814 19; Dec 3382101234234000109 20], Dec 3016582330397532975 21);
  ([Dec 3084783330690499814 19; Dec 6577006545886000533 19], Dec 3016582330397532975 21);
  ([Dec 6577006545886000533 19; Dec 3382101234234000109 20], Dec 3016582330397532975 21);
  ([Dec 6577006545886000533 19; Dec 3084783330690499814 19], Dec 3016582330397532975 21);
  ([Dec 3554761446001999947 20; Dec 4606683185921099932 19], Dec 1973145151064799058 21);
  ([Dec 3554761446001999947 20; Dec 5037840669478700351 19], Dec 1973145151064799058 21);
  ([Dec 4606683185921099932 19; Dec 3554761446001999947 20], Dec 1973145151064799058 21);
  ([Dec 4606683185921099932 19; Dec 5037840669478700351 19], Dec 1973145151064799058 21);
  ([Dec 5037840669478700351 19; Dec 3554761446001999947 20], Dec 1973145151064799058 21);
  ([Dec 5037840669478700351 19; Dec 4606683185921099932 19], Dec 1973145151064799058 21);
  ([Dec 5053979030687000273 20; Dec 2188152994539299956 19], Dec 3322022268840134178 21);
  ([Dec 5053979030687000273 20; Dec 7306449102391999739 19], Dec 3322022268840134178 21);
  ([Dec 2188152994539299956 19; Dec 5053979030687000273 20], Dec 3322022268840134178 21);
  ([Dec 2188152994539299956 19; Dec 7306449102391999739 19], Dec 3322022268840134178 21);
  ([Dec 7306449102391999739 19; Dec 5053979030687000273 20], Dec 3322022268840134178 21);
  ([Dec 7306449102391999739 19; Dec 2188152994539299956 19], Dec 3322022268840134178 21);
  ([Dec 5701471491572999983 20; Dec 3792095515602699751 19], Dec 4127152928039229049 21);
  ([Dec 5701471491572999983 20; Dec 5637757335239900192 19], Dec 4127152928039229049 21);
  ([Dec 3792095515602699751 19; Dec 5701471491572999983 20], Dec 4127152928039229049 21);
  ([Dec 3792095515602699751 19; Dec 5637757335239900192 19], Dec 4127152928039229049 21);
  ([Dec 5637757335239900192 19; Dec 5701471491572999983 20], Dec 4127152928039229049 21);
  ([Dec 5637757335239900192 19; Dec 3792095515602699751 19], Dec 4127152928039229049 21);
  ([Dec 6415280642119999821 20; Dec 1429608194181899994 19], Dec 3248028316703205354 21);
  ([Dec 6415280642119999821 20; Dec 7928863741606100302 19], Dec 3248028316703205354 21);
  ([Dec 1429608194181899994 19; Dec 6415280642119999821 20], Dec 3248028316703205354 21);
  ([Dec 1429608194181899994 19; Dec 7928863741606100302 19], Dec 3248028316703205354 21);
  ([Dec 7928863741606100302 19; Dec 6415280642119999821 20], Dec 3248028316703205354 21);
  ([Dec 7928863741606100302 19; Dec 1429608194181899994 19], Dec 3248028316703205354 21);
  ([Dec 8050114828762999775 20; Dec 2837312821059200241 19], Dec 4626389072073301169 21);
  ([Dec 8050114828762999775 20; Dec 6357675696064499782 19], Dec 4626389072073301169 21);
  ([Dec 2837312821059200241 19; Dec 8050114828762999775 20], Dec 4626389072073301169 21);
  ([Dec 2837312821059200241 19; Dec 6357675696064499782 19], Dec 4626389072073301169 21);
  ([Dec 6357675696064499782 19; Dec 8050114828762999775 20], Dec 4626389072073301169 21);
  ([Dec 6357675696064499782 19; Dec 2837312821059200241 19], Dec 4626389072073301169 21);
  ([Dec 1043670681345300055 19; Dec 1967374410044399891 19], Dec 4582460363147139969 21);
  ([Dec 1043670681345300055 19; Dec 6988954908610299777 19], Dec 4582460363147139969 21);
  ([Dec 1967374410044399891 19; Dec 1043670681345300055 19], Dec 4582460363147139969 21);
  ([Dec 1967374410044399891 19; Dec 6988954908610299777 19], Dec 4582460363147139969 21);
  ([Dec 6988954908610299777 19; Dec 1043670681345300055 19], Dec 4582460363147139969 21);
  ([Dec 6988954908610299777 19; Dec 1967374410044399891 19], Dec 4582460363147139969 21);
  ([Dec 1138448944287499959 19; Dec 3558891412116599873 19], Dec 5784762314048835265 21);
  ([Dec 1138448944287499959 19; Dec 5302659643595899475 19], Dec 5784762314048835265 21);
  ([Dec 3558891412116599873 19; Dec 1138448944287499959 19], Dec 5784762314048835265 21);
  ([Dec 3558891412116599873 19; Dec 5302659643595899475 19], Dec 5784762314048835265 21);
  ([Dec 5302659643595899475 19; Dec 1138448944287499959 19], Dec 5784762314048835265 21);
  ([Dec 5302659643595899475 19; Dec 3558891412116599873 19], Dec 5784762314048835265 21);
  ([Dec 1453634877155199900 19; Dec 2598186853519099948 19], Dec 5880558233804585207 21);
  ([Dec 1453634877155199900 19; Dec 5948178269325600231 19], Dec 5880558233804585207 21);
  ([Dec 2598186853519099948 19; Dec 1453634877155199900 19], Dec 5880558233804585207 21);
  ([Dec 2598186853519099948 19; Dec 5948178269325600231 19], Dec 5880558233804585207 21);
  ([Dec 5948178269325600231 19; Dec 1453634877155199900 19], Dec 5880558233804585207 21);
  ([Dec 5948178269325600231 19; Dec 2598186853519099948 19], Dec 5880558233804585207 21);
  ([Dec 1899456528219800044 19; Dec 3219231812312999819 19], Dec 6912351091082700148 21);
  ([Dec 1899456528219800044 19; Dec 4881311659467200137 19], Dec 6912351091082700148 21);
  ([Dec 3219231812312999819 19; Dec 1899456528219800044 19], Dec 6912351091082700148 21);
  ([Dec 3219231812312999819 19; Dec 4881311659467200137 19], Dec 6912351091082700148 21);
  ([Dec 4881311659467200137 19; Dec 1899456528219800044 19], Dec 6912351091082700148 21);
  ([Dec 4881311659467200137 19; Dec 3219231812312999819 19], Dec 6912351091082700148 21)].

(** FillPointsAndWeights, order 27: Quadrature_Gauss2D_Triangle.cpp:4391-4918. *)
Definition Triangle_27 : rule := Rule true [
  ([Dec 3333333333333299842 19; Dec 3333333333333299842 19], Dec 7789980101449599757 21);
  ([Dec 7330116432769999760 21; Dec 4963349417836199762 19], Dec 1588616850267066984 21);
  ([Dec 4963349417836199762 19; Dec 7330116432769999760 21], Dec 1588616850267066984 21);
  ([Dec 4963349417836199762 19; Dec 4963349417836199762 19], Dec 1588616850267066984 21);
  ([Dec 8299567580295999503 20; Dec 4585021620985200164 19], Dec 5241713317865385330 21);
  ([Dec 4585021620985200164 19; Dec 8299567580295999503 20], Dec 5241713317865385330 21);
  ([Dec 4585021620985200164 19; Dec 4585021620985200164 19], Dec 5241713317865385330 21);
  ([Dec 1509809561254099874 19; Dec 4245095219372900242 19], Dec 6604729788871815249 21);
  ([Dec 4245095219372900242 19; Dec 1509809561254099874 19], Dec 6604729788871815249 21);
  ([Dec 4245095219372900242 19; Dec 4245095219372900242 19], Dec 6604729788871815249 21);
  ([Dec 2359058598921700001 19; Dec 3820470700539200237 19], Dec 7487503483135749677 21);
  ([Dec 3820470700539200237 19; Dec 2359058598921700001 19], Dec 7487503483135749677 21);
  ([Dec 3820470700539200237 19; Dec 3820470700539200237 19], Dec 7487503483135749677 21);
  ([Dec 4380243084078500049 19; Dec 2809878457960799936 19], Dec 7493952221692095142 21);
  ([Dec 2809878457960799936 19; Dec 4380243084078500049 19], Dec 7493952221692095142 21);
  ([Dec 2809878457960799936 19; Dec 2809878457960799936 19], Dec 7493952221692095142 21);
  ([Dec 5453020482919299639 19; Dec 2273489758540299943 19], Dec 6669432370510829794 21);
  ([Dec 2273489758540299943 19; Dec 5453020482919299639 19], Dec 6669432370510829794 21);
  ([Dec 2273489758540299943 19; Dec 2273489758540299943 19], Dec 6669432370510829794 21);
  ([Dec 6508817769825400168 19; Dec 1745591115087299916 19], Dec 5444585556951005330 21);
  ([Dec 1745591115087299916 19; Dec 6508817769825400168 19], Dec 5444585556951005330 21);
  ([Dec 1745591115087299916 19; Dec 1745591115087299916 19], Dec 5444585556951005330 21);
  ([Dec 7534831455971300329 19; Dec 1232584272014399934 19], Dec 4094720330446730353 21);
  ([Dec 1232584272014399934 19; Dec 7534831455971300329 19], Dec 4094720330446730353 21);
  ([Dec 1232584272014399934 19; Dec 1232584272014399934 19], Dec 4094720330446730353 21);
  ([Dec 8398315422156099608 19; Dec 8008422889220000174 20], Dec 2787693794303892567 21);
  ([Dec 8008422889220000174 20; Dec 8398315422156099608 19], Dec 2787693794303892567 21);
  ([Dec 8008422889220000174 20; Dec 8008422889220000174 20], Dec 2787693794303892567 21);
  ([Dec 9044510651842000426 19; Dec 4777446740789999952 20], Dec 1595608236705988022 21);
  ([Dec 4777446740789999952 20; Dec 9044510651842000426 19], Dec 1595608236705988022 21);
  ([Dec 4777446740789999952 20; Dec 4777446740789999952 20], Dec 1595608236705988022 21);
  ([Dec 9565589706397199521 19; Dec 2172051468013999967 20], Dec 6483575721635225202 22);
  ([Dec 2172051468013999967 20; Dec 9565589706397199521 19], Dec 6483575721635225202 22);
  ([Dec 2172051468013999967 20; Dec 2172051468013999967 20], Dec 6483575721635225202 22);
  ([Dec 9904706447691300486 19; Dec 4764677615440000326 21], Dec 1491314130674585938 22);
  ([Dec 4764677615440000326 21; Dec 9904706447691300486 19], Dec 1491314130674585938 22);
  ([Dec 4764677615440000326 21; Dec 4764677615440000326 21], Dec 1491314130674585938 22);
  ([Dec 9253711933499999924 22; Dec 4152952709133099773 19], Dec 4994528425394482041 22);
  ([Dec 9253711933499999924 22; Dec 5837793578933400118 19], Dec 4994528425394482041 22);
  ([Dec 4152952709133099773 19; Dec 9253711933499999924 22], Dec 4994528425394482041 22);
  ([Dec 4152952709133099773 19; Dec 5837793578933400118 19], Dec 4994528425394482041 22);
  ([Dec 5837793578933400118 19; Dec 9253711933499999924 22], Dec 4994528425394482041 22);
  ([Dec 5837793578933400118 19; Dec 4152952709133099773 19], Dec 4994528425394482041 22);
  ([Dec 1385925855560000107 21; Dec 6118990978535000097 20], Dec 2314254245866266546 22);
  ([Dec 1385925855560000107 21; Dec 9374241643590900397 19], Dec 2314254245866266546 22);
  ([Dec 6118990978535000097 20; Dec 1385925855560000107 21], Dec 2314254245866266546 22);
  ([Dec 6118990978535000097 20; Dec 9374241643590900397 19], Dec 2314254245866266546 22);
  ([Dec 9374241643590900397 19; Dec 1385925855560000107 21], Dec 2314254245866266546 22);
  ([Dec 9374241643590900397 19; Dec 6118990978535000097 20], Dec 2314254245866266546 22);
  ([Dec 3682415455909999937 21; Dec 1649086901369100078 19], Dec 6172256681912064672 22);
  ([Dec 3682415455909999937 21; Dec 8314088944071800213 19], Dec 6172256681912064672 22);
  ([Dec 1649086901369100078 19; Dec 3682415455909999937 21], Dec 6172256681912064672 22);
  ([Dec 1649086901369100078 19; Dec 8314088944071800213 19], Dec 6172256681912064672 22);
  ([Dec 8314088944071800213 19; Dec 3682415455909999937 21], Dec 6172256681912064672 22);
  ([Dec 8314088944071800213 19; Dec 1649086901369100078 19], Dec 6172256681912064672 22);
  ([Dec 3903223424160000028 21; Dec 2503506223199999936 20], Dec 2853599261216030751 22);
  ([Dec 3903223424160000028 21; Dec 9710617143438400323 19], Dec 2853599261216030751 22);
  ([Dec 2503506223199999936 20; Dec 3903223424160000028 21], Dec 2853599261216030751 22);
  ([Dec 2503506223199999936 20; Dec 9710617143438400323 19], Dec 2853599261216030751 22);
  ([Dec 9710617143438400323 19; Dec 3903223424160000028 21], Dec 2853599261216030751 22);
  ([Dec 9710617143438400323 19; Dec 2503506223199999936 20], Dec 2853599261216030751 22);
  ([Dec 3233248155009999826 21; Dec 3060644651510999736 19], Dec 5634730629388120301 22);
  ([Dec 3233248155009999826 21; Dec 6907022866938899996 19], Dec 5634730629388120301 22);
  ([Dec 3060644651510999736 19; Dec 3233248155009999826 21], Dec 5634730629388120301 22);
  ([Dec 3060644651510999736 19; Dec 6907022866938899996 19], Dec 5634730629388120301 22);
  ([Dec 6907022866938899996 19; Dec 3233248155009999826 21], Dec 5634730629388120301 22);
  ([Dec 6907022866938899996 19; Dec 3060644651510999736 19], Dec 5634730629388120301 22);
  ([Dec 6467432112239999802 21; Dec 1070732837302200008 19], Dec 8739334747036685410 22);
  ([Dec 6467432112239999802 21; Dec 8864592841575400506 19], Dec 8739334747036685410 22);
  ([Dec 1070732837302200008 19; Dec 6467432112239999802 21], Dec 8739334747036685410 22);
  ([Dec 1070732837302200008 19; Dec 8864592841575400506 19], Dec 8739334747036685410 22);
  ([Dec 8864592841575400506 19; Dec 6467432112239999802 21], Dec 8739334747036685410 22);
  ([Dec 8864592841575400506 19; Dec 1070732837302200008 19], Dec 8739334747036685410 22);
  ([Dec 3247475491329999790 21; Dec 2299575493455799924 19], Dec 5914094075158284709 22);
  ([Dec 3247475491329999790 21; Dec 7667949751630800392 19], Dec 5914094075158284709 22);
  ([Dec 2299575493455799924 19; Dec 3247475491329999790 21], Dec 5914094075158284709 22);
  ([Dec 2299575493455799924 19; Dec 7667949751630800392 19], Dec 5914094075158284709 22);
  ([Dec 7667949751630800392 19; Dec 3247475491329999790 21], Dec 5914094075158284709 22);
  ([Dec 7667949751630800392 19; Dec 2299575493455799924 19], Dec 5914094075158284709 22);
  ([Dec 8675090806750000022 21; Dec 3370366333057799868 19], Dec 9954196473375169149 22);
  ([Dec 8675090806750000022 21; Dec 6542882758874599691 19], Dec 9954196473375169149 22);
  ([Dec 3370366333057799868 19; Dec 8675090806750000022 21], Dec 9954196473375169149 22);
  ([Dec 3370366333057799868 19; Dec 6542882758874599691 19], Dec 9954196473375169149 22);
  ([Dec 6542882758874599691 19; Dec 8675090806750000022 21], Dec 9954196473375169149 22);
  ([Dec 6542882758874599691 19; Dec 3370366333057799868 19], Dec 9954196473375169149 22);
  ([Dec 1559702646730999967 20; Dec 5625657618206000160 20], Dec 9502063975179899768 22);
  ([Dec 1559702646730999967 20; Dec 9281463973506299814 19], Dec 9502063975179899768 22);
  ([Dec 5625657618206000160 20; Dec 1559702646730999967 20], Dec 9502063975179899768 22);
  ([Dec 5625657618206000160 20; Dec 9281463973506299814 19], Dec 9502063975179899768 22);
  ([Dec 9281463973506299814 19; Dec 1559702646730999967 20], Dec 9502063975179899768 22);
  ([Dec 9281463973506299814 19; Dec 5625657618206000160 20], Dec 9502063975179899768 22);
  ([Dec 1797672125369000062 20; Dec 4024513752123999866 19], Dec 2249182904408725606 21);
  ([Dec 1797672125369000062 20; Dec 5795719035339099712 19], Dec 2249182904408725606 21);
  ([Dec 4024513752123999866 19; Dec 1797672125369000062 20], Dec 2249182904408725606 21);
  ([Dec 4024513752123999866 19; Dec 5795719035339099712 19], Dec 2249182904408725606 21);
  ([Dec 5795719035339099712 19; Dec 1797672125369000062 20], Dec 2249182904408725606 21);
  ([Dec 5795719035339099712 19; Dec 4024513752123999866 19], Dec 2249182904408725606 21);
  ([Dec 1712424535389000038 20; Dec 2436547020108300043 19], Dec 1739359730137359427 21);
  ([Dec 1712424535389000038 20; Dec 7392210526352800404 19], Dec 1739359730137359427 21);
  ([Dec 2436547020108300043 19; Dec 1712424535389000038 20], Dec 1739359730137359427 21);
  ([Dec 2436547020108300043 19; Dec 7392210526352800404 19], Dec 1739359730137359427 21);
  ([Dec 7392210526352800404 19; Dec 1712424535389000038 20], Dec 1739359730137359427 21);
  ([Dec 7392210526352800404 19; Dec 2436547020108300043 19], Dec 1739359730137359427 21);
  ([Dec 2288340534657999983 20; Dec 1653895856145299881 19], Dec 2051199518361976684 21);
  ([Dec 2288340534657999983 20; Dec 8117270090388799542 19], Dec 2051199518361976684 21);
  ([Dec 1653895856145299881 19; Dec 2288340534657999983 20], Dec 2051199518361976684 21);
  ([Dec 1653895856145299881 19; Dec 8117270090388799542 19], Dec 2051199518361976684 21);
  ([Dec 8117270090388799542 19; Dec 2288340534657999983 20], Dec 2051199518361976684 21);
  ([Dec 8117270090388799542 19; Dec 1653895856145299881 19], Dec 2051199518361976684 21);
  ([Dec 3273759728777000250 20; Dec 9930187449584999826 20], Dec 2010880774872081042 21);
  ([Dec 3273759728777000250 20; Dec 8679605282163900259 19], Dec 2010880774872081042 21);
  ([Dec 9930187449584999826 20; Dec 3273759728777000250 20], Dec 2010880774872081042 21);
  ([Dec 9930187449584999826 20; Dec 8679605282163900259 19], Dec 2010880774872081042 21);
  ([Dec 8679605282163900259 19; Dec 3273759728777000250 20], Dec 2010880774872081042 21);
  ([Dec 8679605282163900259 19; Dec 9930187449584999826 20], Dec 2010880774872081042 21);
  ([Dec 3382101234234000109 20; Dec 3084783330690499814 19], Dec 3016582330397532975 21);
  ([Dec 3382101234234000109 20; Dec 6577006545886000533 19], Dec 3016582330397532975 21);
  ([Dec 3084783330690499814 19; Dec 3382101234234000109 20], Dec 3016582330397532975 21);
  ([Dec 3084783330690499814 19; Dec 6577006545886000533 19], Dec 3016582330397532975 21);
  ([Dec 6577006545886000533 19; Dec 3382101234234000109 20], Dec 3016582330397532975 21);
  ([Dec 6577006545886000533 19; Dec 3084783330690499814 19], Dec 3016582330397532975 21);
  ([Dec 3554761446001999947 20; Dec 4606683185921099932 19], Dec 1973145151064799058 21);
  ([Dec 3554761446001999947 20; Dec 5037840669478700351 19], Dec 1973145151064799058 21);
  ([Dec 4606683185921099932 19; Dec 3554761446001999947 20], Dec 1973145151064799058 21);
  ([Dec 4606683185921099932 19; Dec 5037840669478700351 19], Dec 1973145151064799058 21);
  ([Dec 5037840669478700351 19; Dec 3554761446001999947 20], Dec 1973145151064799058 21);
  ([Dec 5037840669478700351 19; Dec 4606683185921099932 19], Dec 1973145151064799058 21);
  ([Dec 5053979030687000273 20; Dec 2188152994539299956 19], Dec 3322022268840134178 21);
  ([Dec 5053979030687000273 20; Dec 7306449102391999739 19], Dec 3322022268840134178 21);
  ([Dec 2188152994539299956 19; Dec 5053979030687000273 20], Dec 3322022268840134178 21);
  ([Dec 2188152994539299956 19; Dec 7306449102391999739 19], Dec 3322022268840134178 21);
  ([Dec 7306449102391999739 19; Dec 5053979030687000273 20], Dec 3322022268840134178 21);
  ([Dec 7306449102391999739 19; Dec 2188152994539299956 19], Dec 3322022268840134178 21);
  ([Dec 5701471491572999983 20; Dec 3792095515602699751 19], Dec 4127152928039229049 21);
  ([Dec 5701471491572999983 20; Dec 5637757335239900192 19], Dec 4127152928039229049 21);
  ([Dec 3792095515602699751 19; Dec 5701471491572999983 20], Dec 4127152928039229049 21);
  ([Dec 3792095515602699751 19; Dec 5637757335239900192 19], Dec 4127152928039229049 21);
  ([Dec 5637757335239900192 19; Dec 5701471491572999983 20], Dec 4127152928039229049 21);
  ([Dec 5637757335239900192 19; Dec 3792095515602699751 19], Dec 4127152928039229049 21);
  ([Dec 6415280642119999821 20; Dec 1429608194181899994 19], Dec 3248028316703205354 21);
  ([Dec 6415280642119999821 20; Dec 7928863741606100302 19], Dec 3248028316703205354 21);
  ([Dec 1429608194181899994 19; Dec 6415280642119999821 20], Dec 3248028316703205354 21);
  ([Dec 1429608194181899994 19; Dec 7928863741606100302 19], Dec 3248028316703205354 21);
  ([Dec 7928863741606100302 19; Dec 6415280642119999821 20], Dec 3248028316703205354 21);
  ([Dec 7928863741606100302 19; Dec 1429608194181899994 19], Dec 3248028316703205354 21);
  ([Dec 8050114828762999775 20; Dec 2837312821059200241 19], Dec 4626389072073301169 21);
  ([Dec 8050114828762999775 20; Dec 6357675696064499782 19], Dec 4626389072073301169 21);
  ([Dec 2837312821059200241 19; Dec 8050114828762999775 20], Dec 4626389072073301169 21);
  ([Dec 2837312821059200241 19; Dec 6357675696064499782 19], Dec 4626389072073301169 21);
  ([Dec 6357675696064499782 19; Dec 8050114828762999775 20], Dec 4626389072073301169 21);
  ([Dec 6357675696064499782 19; Dec 2837312821059200241 19], Dec 4626389072073301169 21);
  ([Dec 1043670681345300055 19; Dec 1967374410044399891 19], Dec 4582460363147139969 21);
  ([Dec 1043670681345300055 19; Dec 6988954908610299777 19], Dec 4582460363147139969 21);
  ([Dec 1967374410044399891 19; Dec 1043670681345300055 19], Dec 4582460363147139969 21);
  ([Dec 1967374410044399891 19; Dec 6988954908610299777 19], Dec 4582460363147139969 21);
  ([Dec 6988954908610299777 19; Dec 1043670681345300055 19], Dec 4582460363147139969 21);
  ([Dec 6988954908610299777 19; Dec 1967374410044399891 19], Dec 4582460363147139969 21);
  ([Dec 1138448944287499959 19; Dec 3558891412116599873 19], Dec 5784762314048835265 21);
  ([Dec 1138448944287499959 19; Dec 5302659643595899475 19], Dec 5784762314048835265 21);
  ([Dec 3558891412116599873 19; Dec 1138448944287499959 19], Dec 5784762314048835265 21);
  ([Dec 3558891412116599873 19; Dec 5302659643595899475 19], Dec 5784762314048835265 21);
  ([Dec 5302659643595899475 19; Dec 1138448944287499959 19], Dec 5784762314048835265 21);
  ([Dec 5302659643595899475 19; Dec 3558891412116599873 19], Dec 5784762314048835265 21);
  ([Dec 1453634877155199900 19; Dec 2598186853519099948 19], Dec 5880558233804585207 21);
  ([Dec 1453634877155199900 19; Dec 5948178269325600231 19], Dec 5880558233804585207 21);
  ([Dec 2598186853519099948 19; Dec 1453634877155199900 19], Dec 5880558233804585207 21);
  ([Dec 2598186853519099948 19; Dec 5948178269325600231 19], Dec 5880558233804585207 21);
  ([Dec 5948178269325600231 19; Dec 1453634877155199900 19], Dec 5880558233804585207 21);
  ([Dec 5948178269325600231 19; Dec 2598186853519099948 19], Dec 5880558233804585207 21);
  ([Dec 1899456528219800044 19; Dec 3219231812312999819 19], Dec 6912351091082700148 21);
  ([Dec 1899456528219800044 19; Dec 4881311659467200137 19], Dec 6912351091082700148 21);
  ([Dec 3219231812312999819 19; Dec 1899456528219800044 19], Dec 6912351091082700148 21);
  ([Dec 3219231812312999819 19; Dec 4881311659467200137 19], Dec 6912351091082700148 21);
  ([Dec 4881311659467200137 19; Dec 1899456528219800044 19], Dec 6912351091082700148 21);
  ([Dec 4881311659467200137 19; Dec 3219231812312999819 19], Dec 6912351091082700148 21)].

(** FillPointsAndWeights, order 28: Quadrature_Gauss2D_Triangle.cpp:4921-5448. *)
Definition Triangle_28 : rule := Rule true [
  ([Dec 3333333333333299842 19; Dec 3333333333333299842 19], Dec 7789980101449599757 21);
  ([Dec 7330116432769999760 21; Dec 4963349417836199762 19], Dec 1588616850267066984 21);
  ([Dec 4963349417836199762 19; Dec 7330116432769999760 21], Dec 1588616850267066984 21);
  ([Dec 4963349417836199762 19; Dec 4963349417836199762 19], Dec 1588616850267066984 21);
  ([Dec 8299567580295999503 20; Dec 4585021620985200164 19], Dec 5241713317865385330 21);
  ([Dec 4585021620985200164 19; Dec 8299567580295999503 20], Dec 5241713317865385330 21);
  ([Dec 4585021620985200164 19; Dec 4585021620985200164 19], Dec 5241713317865385330 21);
  ([Dec 1509809561254099874 19; Dec 4245095219372900242 19], Dec 6604729788871815249 21);
  ([Dec 4245095219372900242 19; Dec 1509809561254099874 19], Dec 6604729788871815249 21);
  ([Dec 4245095219372900242 19; Dec 4245095219372900242 19], Dec 6604729788871815249 21);
  ([Dec 2359058598921700001 19; Dec 3820470700539200237 19], Dec 7487503483135749677 21);
  ([Dec 3820470700539200237 19; Dec 2359058598921700001 19], Dec 7487503483135749677 21);
  ([Dec 3820470700539200237 19; Dec 3820470700539200237 19], Dec 7487503483135749677 21);
  ([Dec 4380243084078500049 19; Dec 2809878457960799936 19], Dec 7493952221692095142 21);
  ([Dec 2809878457960799936 19; Dec 4380243084078500049 19], Dec 7493952221692095142 21);
  ([Dec 2809878457960799936 19; Dec 2809878457960799936 19], Dec 7493952221692095142 21);
  ([Dec 5453020482919299639 19; Dec 2273489758540299943 19], Dec 6669432370510829794 21);
  ([Dec 2273489758540299943 19; Dec 5453020482919299639 19], Dec 6669432370510829794 21);
  ([Dec 2273489758540299943 19; Dec 2273489758540299943 19], Dec 6669432370510829794 21);
  ([Dec 6508817769825400168 19; Dec 1745591115087299916 19], Dec 5444585556951005330 21);
  ([Dec 1745591115087299916 19; Dec 6508817769825400168 19], Dec 5444585556951005330 21);
  ([Dec 1745591115087299916 19; Dec 1745591115087299916 19], Dec 5444585556951005330 21);
  ([Dec 7534831455971300329 19; Dec 1232584272014399934 19], Dec 4094720330446730353 21);
  ([Dec 1232584272014399934 19; Dec 7534831455971300329 19], Dec 4094720330446730353 21);
  ([Dec 1232584272014399934 19; Dec 1232584272014399934 19], Dec 4094720330446730353 21);
  ([Dec 8398315422156099608 19; Dec 8008422889220000174 20], Dec 2787693794303892567 21);
  ([Dec 8008422889220000174 20; Dec 8398315422156099608 19], Dec 2787693794303892567 21);
  ([Dec 8008422889220000174 20; Dec 8008422889220000174 20], Dec 2787693794303892567 21);
  ([Dec 9044510651842000426 19; Dec 4777446740789999952 20], Dec 1595608236705988022 21);
  ([Dec 4777446740789999952 20; Dec 9044510651842000426 19], Dec 1595608236705988022 21);
  ([Dec 4777446740789999952 20; Dec 4777446740789999952 20], Dec 1595608236705988022 21);
  ([Dec 9565589706397199521 19; Dec 2172051468013999967 20], Dec 6483575721635225202 22);
  ([Dec 2172051468013999967 20; Dec 9565589706397199521 19], Dec 6483575721635225202 22);
  ([Dec 2172051468013999967 20; Dec 2172051468013999967 20], Dec 6483575721635225202 22);
  ([Dec 9904706447691300486 19; Dec 4764677615440000326 21], Dec 1491314130674585938 22);
  ([Dec 4764677615440000326 21; Dec 9904706447691300486 19], Dec 1491314130674585938 22);
  ([Dec 4764677615440000326 21; Dec 4764677615440000326 21], Dec 1491314130674585938 22);
  ([Dec 9253711933499999924 22; Dec 4152952709133099773 19], Dec 4994528425394482041 22);
  ([Dec 9253711933499999924 22; Dec 5837793578933400118 19], Dec 4994528425394482041 22);
  ([Dec 4152952709133099773 19; Dec 9253711933499999924 22], Dec 4994528425394482041 22);
  ([Dec 4152952709133099773 19; Dec 5837793578933400118 19], Dec 4994528425394482041 22);
  ([Dec 5837793578933400118 19; Dec 9253711933499999924 22], Dec 4994528425394482041 22);
  ([Dec 5837793578933400118 19; Dec 4152952709133099773 19], Dec 4994528425394482041 22);
  ([Dec 1385925855560000107 21; Dec 6118990978535000097 20], Dec 2314254245866266546 22);
  ([Dec 1385925855560000107 21; Dec 9374241643590900397 19], Dec 2314254245866266546 22);
  ([Dec 6118990978535000097 20; Dec 1385925855560000107 21], Dec 2314254245866266546 22);
  ([Dec 6118990978535000097 20; Dec 9374241643590900397 19], Dec 2314254245866266546 22);
  ([Dec 9374241643590900397 19; Dec 1385925855560000107 21], Dec 2314254245866266546 22);
  ([Dec 9374241643590900397 19; Dec 6118990978535000097 20], Dec 2314254245866266546 22);
  ([Dec 3682415455909999937 21; Dec 1649086901369100078 19], Dec 6172256681912064672 22);
  ([Dec 3682415455909999937 21; Dec 8314088944071800213 19], Dec 6172256681912064672 22);
  ([Dec 1649086901369100078 19; Dec 3682415455909999937 21], Dec 6172256681912064672 22);
  ([Dec 1649086901369100078 19; Dec 8314088944071800213 19], Dec 6172256681912064672 22);
  ([Dec 8314088944071800213 19; Dec 3682415455909999937 21], Dec 6172256681912064672 22);
  ([Dec 8314088944071800213 19; Dec 1649086901369100078 19], Dec 6172256681912064672 22);
  ([Dec 3903223424160000028 21; Dec 2503506223199999936 20], Dec 2853599261216030751 22);
  ([Dec 3903223424160000028 21; Dec 9710617143438400323 19], Dec 2853599261216030751 22);
  ([Dec 2503506223199999936 20; Dec 3903223424160000028 21], Dec 2853599261216030751 22);
  ([Dec 2503506223199999936 20; Dec 9710617143438400323 19], Dec 2853599261216030751 22);
  ([Dec 9710617143438400323 19; Dec 3903223424160000028 21], Dec 2853599261216030751 22);
  ([Dec 9710617143438400323 19; Dec 2503506223199999936 20], Dec 2853599261216030751 22);
  ([Dec 3233248155009999826 21; Dec 3060644651510999736 19], Dec 5634730629388120301 22);
  ([Dec 3233248155009999826 21; Dec 6907022866938899996 19], Dec 5634730629388120301 22);
  ([Dec 3060644651510999736 19; Dec 3233248155009999826 21], Dec 5634730629388120301 22);
  ([Dec 3060644651510999736 19; Dec 6907022866938899996 19], Dec 5634730629388120301 22);
  ([Dec 6907022866938899996 19; Dec 3233248155009999826 21], Dec 5634730629388120301 22);
  ([Dec 6907022866938899996 19; Dec 3060644651510999736 19], Dec 5634730629388120301 22);
  ([Dec 6467432112239999802 21; Dec 1070732837302200008 19], Dec 8739334747036685410 22);
  ([Dec 6467432112239999802 21; Dec 8864592841575400506 19], Dec 8739334747036685410 22);
  ([Dec 1070732837302200008 19; Dec 6467432112239999802 21], Dec 8739334747036685410 22);
  ([Dec 1070732837302200008 19; Dec 8864592841575400506 19], Dec 8739334747036685410 22);
  ([Dec 8864592841575400506 19; Dec 6467432112239999802 21], Dec 8739334747036685410 22);
  ([Dec 8864592841575400506 19; Dec 1070732837302200008 19], Dec 8739334747036685410 22);
  ([Dec 3247475491329999790 21; Dec 2299575493455799924 19], Dec 5914094075158284709 22);
  ([Dec 3247475491329999790 21; Dec 7667949751630800392 19], Dec 5914094075158284709 22);
  ([Dec 2299575493455799924 19; Dec 3247475491329999790 21], Dec 5914094075158284709 22);
  ([Dec 2299575493455799924 19; Dec 7667949751630800392 19], Dec 5914094075158284709 22);
  ([Dec 7667949751630800392 19; Dec 3247475491329999790 21], Dec 5914094075158284709 22);
  ([Dec 7667949751630800392 19; Dec 2299575493455799924 19], Dec 5914094075158284709 22);
  ([Dec 8675090806750000022 21; Dec 3370366333057799868 19], Dec 9954196473375169149 22);
  ([Dec 8675090806750000022 21; Dec 6542882758874599691 19], Dec 9954196473375169149 22);
  ([Dec 3370366333057799868 19; Dec 8675090806750000022 21], Dec 9954196473375169149 22);
  ([Dec 3370366333057799868 19; Dec 6542882758874599691 19], Dec 9954196473375169149 22);
  ([Dec 6542882758874599691 19; Dec 8675090806750000022 21], Dec 9954196473375169149 22);
  ([Dec 6542882758874599691 19; Dec 3370366333057799868 19], Dec 9954196473375169149 22);
  ([Dec 1559702646730999967 20; Dec 5625657618206000160 20], Dec 9502063975179899768 22);
  ([Dec 1559702646730999967 20; Dec 9281463973506299814 19], Dec 9502063975179899768 22);
  ([Dec 5625657618206000160 20; Dec 1559702646730999967 20], Dec 9502063975179899768 22);
  ([Dec 5625657618206000160 20; Dec 9281463973506299814 19], Dec 9502063975179899768 22);
  ([Dec 9281463973506299814 19; Dec 1559702646730999967 20], Dec 9502063975179899768 22);
  ([Dec 9281463973506299814 19; Dec 5625657618206000160 20], Dec 9502063975179899768 22);
  ([Dec 1797672125369000062 20; Dec 4024513752123999866 19], Dec 2249182904408725606 21);
  ([Dec 1797672125369000062 20; Dec 5795719035339099712 19], Dec 2249182904408725606 21);
  ([Dec 4024513752123999866 19; Dec 1797672125369000062 20], Dec 2249182904408725606 21);
  ([Dec 4024513752123999866 19; Dec 5795719035339099712 19], Dec 2249182904408725606 21);
  ([Dec 5795719035339099712 19; Dec 1797672125369000062 20], Dec 2249182904408725606 21);
  ([Dec 5795719035339099712 19; Dec 4024513752123999866 19], Dec 2249182904408725606 21);
  ([Dec 1712424535389000038 20; Dec 2436547020108300043 19], Dec 1739359730137359427 21);
  ([Dec 1712424535389000038 20; Dec 7392210526352800404 19], Dec 1739359730137359427 21);
  ([Dec 2436547020108300043 19; Dec 1712424535389000038 20], Dec 1739359730137359427 21);
  ([Dec 2436547020108300043 19; Dec 7392210526352800404 19], Dec 1739359730137359427 21);
  ([Dec 7392210526352800404 19; Dec 1712424535389000038 20], Dec 1739359730137359427 21);
  ([Dec 7392210526352800404 19; Dec 2436547020108300043 19], Dec 1739359730137359427 21);
  ([Dec 2288340534657999983 20; Dec 1653895856145299881 19], Dec 2051199518361976684 21);
  ([Dec 2288340534657999983 20; Dec 8117270090388799542 19], Dec 2051199518361976684 21);
  ([Dec 1653895856145299881 19; Dec 2288340534657999983 20], Dec 2051199518361976684 21);
  ([Dec 1653895856145299881 19; Dec 8117270090388799542 19], Dec 2051199518361976684 21);
  ([Dec 8117270090388799542 19; Dec 2288340534657999983 20], Dec 2051199518361976684 21);
  ([Dec 8117270090388799542 19; Dec 1653895856145299881 19], Dec 2051199518361976684 21);
  ([Dec 3273759728777000250 20; Dec 9930187449584999826 20], Dec 2010880774872081042 21);
  ([Dec 3273759728777000250 20; Dec 8679605282163900259 19], Dec 2010880774872081042 21);
  ([Dec 9930187449584999826 20; Dec 3273759728777000250 20], Dec 2010880774872081042 21);
  ([Dec 9930187449584999826 20; Dec 8679605282163900259 19], Dec 2010880774872081042 21);
  ([Dec 8679605282163900259 19; Dec 3273759728777000250 20], Dec 2010880774872081042 21);
  ([Dec 8679605282163900259 19; Dec 9930187449584999826 20], Dec 2010880774872081042 21);
  ([Dec 3382101234234000109 20; Dec 3084783330690499814 19], Dec 3016582330397532975 21);
  ([Dec 3382101234234000109 20; Dec 6577006545886000533 19], Dec 3016582330397532975 21);
  ([Dec 3084783330690499814 19; Dec 3382101234234000109 20], Dec 3016582330397532975 21);
  ([Dec 3084783330690499814 19; Dec 6577006545886000533 19], Dec 3016582330397532975 21);
  ([Dec 6577006545886000533 19; Dec 3382101234234000109 20], Dec 3016582330397532975 21);
  ([Dec 6577006545886000533 19; Dec 3084783330690499814 19], Dec 3016582330397532975 21);
  ([Dec 3554761446001999947 20; Dec 4606683185921099932 19], Dec 1973145151064799058 21);
  ([Dec 3554761446001999947 20; Dec 5037840669478700351 19], Dec 1973145151064799058 21);
  ([Dec 4606683185921099932 19; Dec 3554761446001999947 20], Dec 1973145151064799058 21);
  ([Dec 4606683185921099932 19; Dec 5037840669478700351 19], Dec 1973145151064799058 21);
  ([Dec 5037840669478700351 19; Dec 3554761446001999947 20], Dec 1973145151064799058 21);
  ([Dec 5037840669478700351 19; Dec 4606683185921099932 19], Dec 1973145151064799058 21);
  ([Dec 5053979030687000273 20; Dec 2188152994539299956 19], Dec 3322022268840134178 21);
  ([Dec 5053979030687000273 20; Dec 7306449102391999739 19], Dec 3322022268840134178 21);
  ([Dec 2188152994539299956 19; Dec 5053979030687000273 20], Dec 3322022268840134178 21);
  ([Dec 2188152994539299956 19; Dec 7306449102391999739 19], Dec 3322022268840134178 21);
  ([Dec 7306449102391999739 19; Dec 5053979030687000273 20], Dec 3322022268840134178 21);
  ([Dec 7306449102391999739 19; Dec 2188152994539299956 19], Dec 3322022268840134178 21);
  ([Dec 5701471491572999983 20; Dec 3792095515602699751 19], Dec 4127152928039229049 21);
  ([Dec 5701471491572999983 20; Dec 5637757335239900192 19], Dec 4127152928039229049 21);
  ([Dec 3792095515602699751 19; Dec 5701471491572999983 20], Dec 4127152928039229049 21);
  ([Dec 3792095515602699751 19; Dec 5637757335239900192 19], Dec 4127152928039229049 21);
  ([Dec 5637757335239900192 19; Dec 5701471491572999983 20], Dec 4127152928039229049 21);
  ([Dec 5637757335239900192 19; Dec 3792095515602699751 19], Dec 4127152928039229049 21);
  ([Dec 6415280642119999821 20; Dec 1429608194181899994 19], Dec 3248028316703205354 21);
  ([Dec 6415280642119999821 20; Dec 7928863741606100302 19], Dec 3248028316703205354 21);
  ([Dec 1429608194181899994 19; Dec 6415280642119999821 20], Dec 3248028316703205354 21);
  ([Dec 1429608194181899994 19; Dec 7928863741606100302 19], Dec 3248028316703205354 21);
  ([Dec 7928863741606100302 19; Dec 6415280642119999821 20], Dec 3248028316703205354 21);
  ([Dec 7928863741606100302 19; Dec 1429608194181899994 19], Dec 3248028316703205354 21);
  ([Dec 8050114828762999775 20; Dec 2837312821059200241 19], Dec 4626389072073301169 21);
  ([Dec 8050114828762999775 20; Dec 6357675696064499782 19], Dec 4626389072073301169 21);
  ([Dec 2837312821059200241 19; Dec 8050114828762999775 20], Dec 4626389072073301169 21);
  ([Dec 2837312821059200241 19; Dec 6357675696064499782 19], Dec 4626389072073301169 21);
  ([Dec 6357675696064499782 19; Dec 8050114828762999775 20], Dec 4626389072073301169 21);
  ([Dec 6357675696064499782 19; Dec 2837312821059200241 19], Dec 4626389072073301169 21);
  ([Dec 1043670681345300055 19; Dec 1967374410044399891 19], Dec 4582460363147139969 21);
  ([Dec 1043670681345300055 19; Dec 6988954908610299777 19], Dec 4582460363147139969 21);
  ([Dec 1967374410044399891 19; Dec 1043670681345300055 19], Dec 4582460363147139969 21);
  ([Dec 1967374410044399891 19; Dec 6988954908610299777 19], Dec 4582460363147139969 21);
  ([Dec 6988954908610299777 19; Dec 1043670681345300055 19], Dec 4582460363147139969 21);
  ([Dec 6988954908610299777 19; Dec 1967374410044399891 19], Dec 4582460363147139969 21);
  ([Dec 1138448944287499959 19; Dec 3558891412116599873 19], Dec 5784762314048835265 21);
  ([Dec 1138448944287499959 19; Dec 5302659643595899475 19], Dec 5784762314048835265 21);
  ([Dec 3558891412116599873 19; Dec 1138448944287499959 19], Dec 5784762314048835265 21);
  ([Dec 3558891412116599873 19; Dec 5302659643595899475 19], Dec 5784762314048835265 21);
  ([Dec 5302659643595899475 19; Dec 1138448944287499959 19], Dec 5784762314048835265 21);
  ([Dec 5302659643595899475 19; Dec 3558891412116599873 19], Dec 5784762314048835265 21);
  ([Dec 1453634877155199900 19; Dec 2598186853519099948 19], Dec 5880558233804585207 21);
  ([Dec 1453634877155199900 19; Dec 5948178269325600231 19], Dec 5880558233804585207 21);
  ([Dec 2598186853519099948 19; Dec 1453634877155199900 19], Dec 5880558233804585207 21);
  ([Dec 2598186853519099948 19; Dec 5948178269325600231 19], Dec 5880558233804585207 21);
  ([Dec 5948178269325600231 19; Dec 1453634877155199900 19], Dec 5880558233804585207 21);
  ([Dec 5948178269325600231 19; Dec 2598186853519099948 19], Dec 5880558233804585207 21);
  ([Dec 1899456528219800044 19; Dec 3219231812312999819 19], Dec 6912351091082700148 21);
  ([Dec 1899456528219800044 19; Dec 4881311659467200137 19], Dec 6912351091082700148 21);
  ([Dec 3219231812312999819 19; Dec 1899456528219800044 19], Dec 6912351091082700148 21);
  ([Dec 3219231812312999819 19; Dec 4881311659467200137 19], Dec 6912351091082700148 21);
  ([Dec 4881311659467200137 19; Dec 1899456528219800044 19], Dec 6912351091082700148 21);
  ([Dec 4881311659467200137 19; Dec 3219231812312999819 19], Dec 6912351091082700148 21)].

(** FillPointsAndWeights, order 29: Quadrature_Gauss2D_Triangle.cpp:5451-5978. *)
Definition Triangle_29 : rule := Rule true [
  ([Dec 3333333333333299842 19; Dec 3333333333333299842 19], Dec 7789980101449599757 21);
  ([Dec 7330116432769999760 21; Dec 4963349417836199762 19], Dec 1588616850267066984 21);
  ([Dec 4963349417836199762 19; Dec 7330116432769999760 21], Dec 1588616850267066984 21);
  ([Dec 4963349417836199762 19; Dec 4963349417836199762 19], Dec 1588616850267066984 21);
  ([Dec 8299567580295999503 20; Dec 4585021620985200164 19], Dec 5241713317865385330 21);
  ([Dec 4585021620985200164 19; Dec 8299567580295999503 20], Dec 5241713317865385330 21);
  ([Dec 4585021620985200164 19; Dec 4585021620985200164 19], Dec 5241713317865385330 21);
  ([Dec 1509809561254099874 19; Dec 4245095219372900242 19], Dec 6604729788871815249 21);
  ([Dec 4245095219372900242 19; Dec 1509809561254099874 19], Dec 6604729788871815249 21);
  ([Dec 4245095219372900242 19; Dec 4245095219372900242 19], Dec 6604729788871815249 21);
  ([Dec 2359058598921700001 19; Dec 3820470700539200237 19], Dec 7487503483135749677 21);
  ([Dec 3820470700539200237 19; Dec 2359058598921700001 19], Dec 7487503483135749677 21);
  ([Dec 3820470700539200237 19; Dec 3820470700539200237 19], Dec 7487503483135749677 21);
  ([Dec 4380243084078500049 19; Dec 2809878457960799936 19], Dec 7493952221692095142 21);
  ([Dec 2809878457960799936 19; Dec 4380243084078500049 19], Dec 7493952221692095142 21);
  ([Dec 2809878457960799936 19; Dec 2809878457960799936 19], Dec 7493952221692095142 21);
  ([Dec 5453020482919299639 19; Dec 2273489758540299943 19], Dec 6669432370510829794 21);
  ([Dec 2273489758540299943 19; Dec 5453020482919299639 19], Dec 6669432370510829794 21);
  ([Dec 2273489758540299943 19; Dec 2273489758540299943 19], Dec 6669432370510829794 21);
  ([Dec 6508817769825400168 19; Dec 1745591115087299916 19], Dec 5444585556951005330 21);
  ([Dec 1745591115087299916 19; Dec 6508817769825400168 19], Dec 5444585556951005330 21);
  ([Dec 1745591115087299916 19; Dec 1745591115087299916 19], Dec 5444585556951005330 21);
  ([Dec 7534831455971300329 19; Dec 1232584272014399934 19], Dec 4094720330446730353 21);
  ([Dec 1232584272014399934 19; Dec 7534831455971300329 19], Dec 4094720330446730353 21);
  ([Dec 1232584272014399934 19; Dec 1232584272014399934 19], Dec 4094720330446730353 21);
  ([Dec 8398315422156099608 19; Dec 8008422889220000174 20], Dec 2787693794303892567 21);
  ([Dec 8008422889220000174 20; Dec 8398315422156099608 19], Dec 2787693794303892567 21);
  ([Dec 8008422889220000174 20; Dec 8008422889220000174 20], Dec 2787693794303892567 21);
  ([Dec 9044510651842000426 19; Dec 4777446740789999952 20], Dec 1595608236705988022 21);
  ([Dec 4777446740789999952 20; Dec 9044510651842000426 19], Dec 1595608236705988022 21);
  ([Dec 4777446740789999952 20; Dec 4777446740789999952 20], Dec 1595608236705988022 21);
  ([Dec 9565589706397199521 19; Dec 2172051468013999967 20], Dec 6483575721635225202 22);
  ([Dec 2172051468013999967 20; Dec 9565589706397199521 19], Dec 6483575721635225202 22);
  ([Dec 2172051468013999967 20; Dec 2172051468013999967 20], Dec 6483575721635225202 22);
  ([Dec 9904706447691300486 19; Dec 4764677615440000326 21], Dec 1491314130674585938 22);
  ([Dec 4764677615440000326 21; Dec 9904706447691300486 19], Dec 1491314130674585938 22);
  ([Dec 4764677615440000326 21; Dec 4764677615440000326 21], Dec 1491314130674585938 22);
  ([Dec 9253711933499999924 22; Dec 4152952709133099773 19], Dec 4994528425394482041 22);
  ([Dec 9253711933499999924 22; Dec 5837793578933400118 19], Dec 4994528425394482041 22);
  ([Dec 4152952709133099773 19; Dec 9253711933499999924 22], Dec 4994528425394482041 22);
  ([Dec 4152952709133099773 19; Dec 5837793578933400118 19], Dec 4994528425394482041 22);
  ([Dec 5837793578933400118 19; Dec 9253711933499999924 22], Dec 4994528425394482041 22);
  ([Dec 5837793578933400118 19; Dec 4152952709133099773 19], Dec 4994528425394482041 22);
  ([Dec 1385925855560000107 21; Dec 6118990978535000097 20], Dec 2314254245866266546 22);
  ([Dec 1385925855560000107 21; Dec 9374241643590900397 19], Dec 2314254245866266546 22);
  ([Dec 6118990978535000097 20; Dec 1385925855560000107 21], Dec 2314254245866266546 22);
  ([Dec 6118990978535000097 20; Dec 9374241643590900397 19], Dec 2314254245866266546 22);
  ([Dec 9374241643590900397 19; Dec 1385925855560000107 21], Dec 2314254245866266546 22);
  ([Dec 9374241643590900397 19; Dec 6118990978535000097 20], Dec 2314254245866266546 22);
  ([Dec 3682415455909999937 21; Dec 1649086901369100078 19], Dec 6172256681912064672 22);
  ([Dec 3682415455909999937 21; Dec 8314088944071800213 19], Dec 6172256681912064672 22);
  ([Dec 1649086901369100078 19; Dec 3682415455909999937 21], Dec 6172256681912064672 22);
  ([Dec 1649086901369100078 19; Dec 8314088944071800213 19], Dec 6172256681912064672 22);
  ([Dec 8314088944071800213 19; Dec 3682415455909999937 21], Dec 6172256681912064672 22);
  ([Dec 8314088944071800213 19; Dec 1649086901369100078 19], Dec 6172256681912064672 22);
  ([Dec 3903223424160000028 21; Dec 2503506223199999936 20], Dec 2853599261216030751 22);
  ([Dec 3903223424160000028 21; Dec 9710617143438400323 19], Dec 2853599261216030751 22);
  ([Dec 2503506223199999936 20; Dec 3903223424160000028 21], Dec 2853599261216030751 22);
  ([Dec 2503506223199999936 20; Dec 9710617143438400323 19], Dec 2853599261216030751 22);
  ([Dec 9710617143438400323 19; Dec 3903223424160000028 21], Dec 2853599261216030751 22);
  ([Dec 9710617143438400323 19; Dec 2503506223199999936 20], Dec 2853599261216030751 22);
  ([Dec 3233248155009999826 21; Dec 3060644651510999736 19], Dec 5634730629388120301 22);
  ([Dec 3233248155009999826 21; Dec 6907022866938899996 19], Dec 5634730629388120301 22);
  ([Dec 3060644651510999736 19; Dec 3233248155009999826 21], Dec 5634730629388120301 22);
  ([Dec 3060644651510999736 19; Dec 6907022866938899996 19], Dec 5634730629388120301 22);
  ([Dec 6907022866938899996 19; Dec 3233248155009999826 21], Dec 5634730629388120301 22);
  ([Dec 6907022866938899996 19; Dec 3060644651510999736 19], Dec 5634730629388120301 22);
  ([Dec 6467432112239999802 21; Dec 1070732837302200008 19], Dec 8739334747036685410 22);
  ([Dec 6467432112239999802 21; Dec 8864592841575400506 19], Dec 8739334747036685410 22);
  ([Dec 1070732837302200008 19; Dec 6467432112239999802 21], Dec 8739334747036685410 22);
  ([Dec 1070732837302200008 19; Dec 8864592841575400506 19], Dec 8739334747036685410 22);
  ([Dec 8864592841575400506 19; Dec 6467432112239999802 21], Dec 8739334747036685410 22);
  ([Dec 8864592841575400506 19; Dec 1070732837302200008 19], Dec 8739334747036685410 22);
  ([Dec 3247475491329999790 21; Dec 2299575493455799924 19], Dec 5914094075158284709 22);
  ([Dec 3247475491329999790 21; Dec 7667949751630800392 19], Dec 5914094075158284709 22);
  ([Dec 2299575493455799924 19; Dec 3247475491329999790 21], Dec 5914094075158284709 22);
  ([Dec 2299575493455799924 19; Dec 7667949751630800392 19], Dec 5914094075158284709 22);
  ([Dec 7667949751630800392 19; Dec 3247475491329999790 21], Dec 5914094075158284709 22);
  ([Dec 7667949751630800392 19; Dec 2299575493455799924 19], Dec 5914094075158284709 22);
  ([Dec 8675090806750000022 21; Dec 3370366333057799868 19], Dec 9954196473375169149 22);
  ([Dec 8675090806750000022 21; Dec 6542882758874599691 19], Dec 9954196473375169149 22);
  ([Dec 3370366333057799868 19; Dec 8675090806750000022 21], Dec 9954196473375169149 22);
  ([Dec 3370366333057799868 19; Dec 6542882758874599691 19], Dec 9954196473375169149 22);
  ([Dec 6542882758874599691 19; Dec 8675090806750000022 21], Dec 9954196473375169149 22);
  ([Dec 6542882758874599691 19; Dec 3370366333057799868 19], Dec 9954196473375169149 22);
  ([Dec 1559702646730999967 20; Dec 5625657618206000160 20], Dec 9502063975179899768 22);
  ([Dec 1559702646730999967 20; Dec 9281463973506299814 19], Dec 9502063975179899768 22);
  ([Dec 5625657618206000160 20; Dec 1559702646730999967 20], Dec 9502063975179899768 22);
  ([Dec 5625657618206000160 20; Dec 9281463973506299814 19], Dec 9502063975179899768 22);
  ([Dec 9281463973506299814 19; Dec 1559702646730999967 20], Dec 9502063975179899768 22);
  ([Dec 9281463973506299814 19; Dec 5625657618206000160 20], Dec 9502063975179899768 22);
  ([Dec 1797672125369000062 20; Dec 4024513752123999866 19], Dec 2249182904408725606 21);
  ([Dec 1797672125369000062 20; Dec 5795719035339099712 19], Dec 2249182904408725606 21);
  ([Dec 4024513752123999866 19; Dec 1797672125369000062 20], Dec 2249182904408725606 21);
  ([Dec 4024513752123999866 19; Dec 5795719035339099712 19], Dec 2249182904408725606 21);
  ([Dec 5795719035339099712 19; Dec 1797672125369000062 20], Dec 2249182904408725606 21);
  ([Dec 5795719035339099712 19; Dec 4024513752123999866 19], Dec 2249182904408725606 21);
  ([Dec 1712424535389000038 20; Dec 2436547020108300043 19], Dec 1739359730137359427 21);
  ([Dec 1712424535389000038 20; Dec 7392210526352800404 19], Dec 1739359730137359427 21);
  ([Dec 2436547020108300043 19; Dec 1712424535389000038 20], Dec 1739359730137359427 21);
  ([Dec 2436547020108300043 19; Dec 7392210526352800404 19], Dec 1739359730137359427 21);
  ([Dec 7392210526352800404 19; Dec 1712424535389000038 20], Dec 1739359730137359427 21);
  ([Dec 7392210526352800404 19; Dec 2436547020108300043 19], Dec 1739359730137359427 21);
  ([Dec 2288340534657999983 20; Dec 1653895856145299881 19], Dec 2051199518361976684 21);
  ([Dec 2288340534657999983 20; Dec 8117270090388799542 19], Dec 2051199518361976684 21);
  ([Dec 1653895856145299881 19; Dec 2288340534657999983 20], Dec 2051199518361976684 21);
  ([Dec 1653895856145299881 19; Dec 8117270090388799542 19], Dec 2051199518361976684 21);
  ([Dec 8117270090388799542 19; Dec 2288340534657999983 20], Dec 2051199518361976684 21);
  ([Dec 8117270090388799542 19; Dec 1653895856145299881 19], Dec 2051199518361976684 21);
  ([Dec 3273759728777000250 20; Dec 9930187449584999826 20], Dec 2010880774872081042 21);
  ([Dec 3273759728777000250 20; Dec 8679605282163900259 19], Dec 2010880774872081042 21);
  ([Dec 9930187449584999826 20; Dec 3273759728777000250 20], Dec 2010880774872081042 21);
  ([Dec 9930187449584999826 20; Dec 8679605282163900259 19], Dec 2010880774872081042 21);
  ([Dec 8679605282163900259 19; Dec 3273759728777000250 20], Dec 2010880774872081042 21);
  ([Dec 8679605282163900259 19; Dec 9930187449584999826 20], Dec 2010880774872081042 21);
  ([Dec 3382101234234000109 20; Dec 3084783330690499814 19], Dec 3016582330397532975 21);
  ([Dec 3382101234234000109 20; Dec 6577006545886000533 19], Dec 3016582330397532975 21);
  ([Dec 3084783330690499814 19; Dec 3382101234234000109 20], Dec 3016582330397532975 21);
  ([Dec 3084783330690499814 19; Dec 6577006545886000533 19], Dec 3016582330397532975 21);
  ([Dec 6577006545886000533 19; Dec 3382101234234000109 20], Dec 3016582330397532975 21);
  ([Dec 6577006545886000533 19; Dec 3084783330690499814 19], Dec 3016582330397532975 21);
  ([Dec 3554761446001999947 20; Dec 4606683185921099932 19], Dec 1973145151064799058 21);
  ([Dec 3554761446001999947 20; Dec 5037840669478700351 19], Dec 1973145151064799058 21);
  ([Dec 4606683185921099932 19; Dec 3554761446001999947 20], Dec 1973145151064799058 21);
  ([Dec 4606683185921099932 19; Dec 5037840669478700351 19], Dec 1973145151064799058 21);
  ([Dec 5037840669478700351 19; Dec 3554761446001999947 20], Dec 1973145151064799058 21);
  ([Dec 5037840669478700351 19; Dec 4606683185921099932 19], Dec 1973145151064799058 21);
  ([Dec 5053979030687000273 20; Dec 2188152994539299956 19], Dec 3322022268840134178 21);
  ([Dec 5053979030687000273 20; Dec 7306449102391999739 19], Dec 3322022268840134178 21);
  ([Dec 2188152994539299956 19; Dec 5053979030687000273 20], Dec 3322022268840134178 21);
  ([Dec 2188152994539299956 19; Dec 7306449102391999739 19], Dec 3322022268840134178 21);
  ([Dec 7306449102391999739 19; Dec 5053979030687000273 20], Dec 3322022268840134178 21);
  ([Dec 7306449102391999739 19; Dec 2188152994539299956 19], Dec 3322022268840134178 21);
  ([Dec 5701471491572999983 20; Dec 3792095515602699751 19], Dec 4127152928039229049 21);
  ([Dec 5701471491572999983 20; Dec 5637757335239900192 19], Dec 4127152928039229049 21);
  ([Dec 3792095515602699751 19; Dec 5701471491572999983 20], Dec 4127152928039229049 21);
  ([Dec 3792095515602699751 19; Dec 5637757335239900192 19], Dec 4127152928039229049 21);
  ([Dec 5637757335239900192 19; Dec 5701471491572999983 20], Dec 4127152928039229049 21);
  ([Dec 5637757335239900192 19; Dec 3792095515602699751 19], Dec 4127152928039229049 21);
  ([Dec 6415280642119999821 20; Dec 1429608194181899994 19], Dec 3248028316703205354 21);
  ([Dec 6415280642119999821 20; Dec 7928863741606100302 19], Dec 3248028316703205354 21);
  ([Dec 1429608194181899994 19; Dec 6415280642119999821 20], Dec 3248028316703205354 21);
  ([Dec 1429608194181899994 19; Dec 7928863741606100302 19], Dec 3248028316703205354 21);
  ([Dec 7928863741606100302 19; Dec 6415280642119999821 20], Dec 3248028316703205354 21);
  ([Dec 7928863741606100302 19; Dec 1429608194181899994 19], Dec 3248028316703205354 21);
  ([Dec 8050114828762999775 20; Dec 2837312821059200241 19], Dec 4626389072073301169 21);
  ([Dec 8050114828762999775 20; Dec 6357675696064499782 19], Dec 4626389072073301169 21);
  ([Dec 2837312821059200241 19; Dec 8050114828762999775 20], Dec 4626389072073301169 21);
  ([Dec 2837312821059200241 19; Dec 6357675696064499782 19], Dec 4626389072073301169 21);
  ([Dec 6357675696064499782 19; Dec 8050114828762999775 20], Dec 4626389072073301169 21);
  ([Dec 6357675696064499782 19; Dec 2837312821059200241 19], Dec 4626389072073301169 21);
  ([Dec 1043670681345300055 19; Dec 1967374410044399891 19], Dec 4582460363147139969 21);
  ([Dec 1043670681345300055 19; Dec 6988954908610299777 19], Dec 4582460363147139969 21);
  ([Dec 1967374410044399891 19; Dec 1043670681345300055 19], Dec 4582460363147139969 21);
  ([Dec 1967374410044399891 19; Dec 6988954908610299777 19], Dec 4582460363147139969 21);
  ([Dec 6988954908610299777 19; Dec 1043670681345300055 19], Dec 4582460363147139969 21);
  ([Dec 6988954908610299777 19; Dec 1967374410044399891 19], Dec 4582460363147139969 21);
  ([Dec 1138448944287499959 19; Dec 3558891412116599873 19], Dec 5784762314048835265 21);
  ([Dec 1138448944287499959 19; Dec 5302659643595899475 19], Dec 5784762314048835265 21);
  ([Dec 3558891412116599873 19; Dec 1138448944287499959 19], Dec 5784762314048835265 21);
  ([Dec 3558891412116599873 19; Dec 5302659643595899475 19], Dec 5784762314048835265 21);
  ([Dec 5302659643595899475 19; Dec 1138448944287499959 19], Dec 5784762314048835265 21);
  ([Dec 5302659643595899475 19; Dec 3558891412116599873 19], Dec 5784762314048835265 21);
  ([Dec 1453634877155199900 19; Dec 2598186853519099948 19], Dec 5880558233804585207 21);
  ([Dec 1453634877155199900 19; Dec 5948178269325600231 19], Dec 5880558233804585207 21);
  ([Dec 2598186853519099948 19; Dec 1453634877155199900 19], Dec 5880558233804585207 21);
  ([Dec 2598186853519099948 19; Dec 5948178269325600231 19], Dec 5880558233804585207 21);
  ([Dec 5948178269325600231 19; Dec 1453634877155199900 19], Dec 5880558233804585207 21);
  ([Dec 5948178269325600231 19; Dec 2598186853519099948 19], Dec 5880558233804585207 21);
  ([Dec 1899456528219800044 19; Dec 3219231812312999819 19], Dec 6912351091082700148 21);
  ([Dec 1899456528219800044 19; Dec 4881311659467200137 19], Dec 6912351091082700148 21);
  ([Dec 3219231812312999819 19; Dec 1899456528219800044 19], Dec 6912351091082700148 21);
  ([Dec 3219231812312999819 19; Dec 4881311659467200137 19], Dec 6912351091082700148 21);
  ([Dec 4881311659467200137 19; Dec 1899456528219800044 19], Dec 6912351091082700148 21);
  ([Dec 4881311659467200137 19; Dec 3219231812312999819 19], Dec 6912351091082700148 21)].

(** FillPointsAndWeights, order 30: Quadrature_Gauss2D_Triangle.cpp:5981-6508. *)
Definition Triangle_30 : rule := Rule true [
  ([Dec 3333333333333299842 19; Dec 3333333333333299842 19], Dec 7789980101449599757 21);
  ([Dec 7330116432769999760 21; Dec 4963349417836199762 19], Dec 1588616850267066984 21);
  ([Dec 4963349417836199762 19; Dec 7330116432769999760 21], Dec 1588616850267066984 21);
  ([Dec 4963349417836199762 19; Dec 4963349417836199762 19], Dec 1588616850267066984 21);
  ([Dec 8299567580295999503 20; Dec 4585021620985200164 19], Dec 5241713317865385330 21);
  ([Dec 4585021620985200164 19; Dec 8299567580295999503 20], Dec 5241713317865385330 21);
  ([Dec 4585021620985200164 19; Dec 4585021620985200164 19], Dec 5241713317865385330 21);
  ([Dec 1509809561254099874 19; Dec 4245095219372900242 19], Dec 6604729788871815249 21);
  ([Dec 4245095219372900242 19; Dec 1509809561254099874 19], Dec 6604729788871815249 21);
  ([Dec 4245095219372900242 19; Dec 4245095219372900242 19], Dec 6604729788871815249 21);
  ([Dec 2359058598921700001 19; Dec 3820470700539200237 19], Dec 7487503483135749677 21);
  ([Dec 3820470700539200237 19; Dec 2359058598921700001 19], Dec 7487503483135749677 21);
  ([Dec 3820470700539200237 19; Dec 3820470700539200237 19], Dec 7487503483135749677 21);
  ([Dec 4380243084078500049 19; Dec 2809878457960799936 19], Dec 7493952221692095142 21);
  ([Dec 2809878457960799936 19; Dec 4380243084078500049 19], Dec 7493952221692095142 21);
  ([Dec 2809878457960799936 19; Dec 2809878457960799936 19], Dec 7493952221692095142 21);
  ([Dec 5453020482919299639 19; Dec 2273489758540299943 19], Dec 6669432370510829794 21);
  ([Dec 2273489758540299943 19; Dec 5453020482919299639 19], Dec 6669432370510829794 21);
  ([Dec 2273489758540299943 19; Dec 2273489758540299943 19], Dec 6669432370510829794 21);
  ([Dec 6508817769825400168 19; Dec 1745591115087299916 19], Dec 5444585556951005330 21);
  ([Dec 1745591115087299916 19; Dec 6508817769825400168 19], Dec 5444585556951005330 21);
  ([Dec 1745591115087299916 19; Dec 1745591115087299916 19], Dec 5444585556951005330 21);
  ([Dec 7534831455971300329 19; Dec 1232584272014399934 19], Dec 4094720330446730353 21);
  ([Dec 1232584272014399934 19; Dec 7534831455971300329 19], Dec 4094720330446730353 21);
  ([Dec 1232584272014399934 19; Dec 1232584272014399934 19], Dec 4094720330446730353 21);
  ([Dec 8398315422156099608 19; Dec 8008422889220000174 20], Dec 2787693794303892567 21);
  ([Dec 8008422889220000174 20; Dec 8398315422156099608 19], Dec 2787693794303892567 21);
  ([Dec 8008422889220000174 20; Dec 8008422889220000174 20], Dec 2787693794303892567 21);
  ([Dec 9044510651842000426 19; Dec 4777446740789999952 20], Dec 1595608236705988022 21);
  ([Dec 4777446740789999952 20; Dec 9044510651842000426 19], Dec 1595608236705988022 21);
  ([Dec 4777446740789999952 20; Dec 4777446740789999952 20], Dec 1595608236705988022 21);
  ([Dec 9565589706397199521 19; Dec 2172051468013999967 20], Dec 6483575721635225202 22);
  ([Dec 2172051468013999967 20; Dec 9565589706397199521 19], Dec 6483575721635225202 22);
  ([Dec 2172051468013999967 20; Dec 2172051468013999967 20], Dec 6483575721635225202 22);
  ([Dec 9904706447691300486 19; Dec 4764677615440000326 21], Dec 1491314130674585938 22);
  ([Dec 4764677615440000326 21; Dec 9904706447691300486 19], Dec 1491314130674585938 22);
  ([Dec 4764677615440000326 21; Dec 4764677615440000326 21], Dec 1491314130674585938 22);
  ([Dec 9253711933499999924 22; Dec 4152952709133099773 19], Dec 4994528425394482041 22);
  ([Dec 9253711933499999924 22; Dec 5837793578933400118 19], Dec 4994528425394482041 22);
  ([Dec 4152952709133099773 19; Dec 9253711933499999924 22], Dec 4994528425394482041 22);
  ([Dec 4152952709133099773 19; Dec 5837793578933400118 19], Dec 4994528425394482041 22);
  ([Dec 5837793578933400118 19; Dec 9253711933499999924 22], Dec 4994528425394482041 22);
  ([Dec 5837793578933400118 19; Dec 4152952709133099773 19], Dec 4994528425394482041 22);
  ([Dec 1385925855560000107 21; Dec 6118990978535000097 20], Dec 2314254245866266546 22);
  ([Dec 1385925855560000107 21; Dec 9374241643590900397 19], Dec 2314254245866266546 22);
  ([Dec 6118990978535000097 20; Dec 1385925855560000107 21], Dec 2314254245866266546 22);
  ([Dec 6118990978535000097 20; Dec 9374241643590900397 19], Dec 2314254245866266546 22);
  ([Dec 9374241643590900397 19; Dec 1385925855560000107 21], Dec 2314254245866266546 22);
  ([Dec 9374241643590900397 19; Dec 6118990978535000097 20], Dec 2314254245866266546 22);
  ([Dec 3682415455909999937 21; Dec 1649086901369100078 19], Dec 6172256681912064672 22);
  ([Dec 3682415455909999937 21; Dec 8314088944071800213 19], Dec 6172256681912064672 22);
  ([Dec 1649086901369100078 19; Dec 3682415455909999937 21], Dec 6172256681912064672 22);
  ([Dec 1649086901369100078 19; Dec 8314088944071800213 19], Dec 6172256681912064672 22);
  ([Dec 8314088944071800213 19; Dec 3682415455909999937 21], Dec 6172256681912064672 22);
  ([Dec 8314088944071800213 19; Dec 1649086901369100078 19], Dec 6172256681912064672 22);
  ([Dec 3903223424160000028 21; Dec 2503506223199999936 20], Dec 2853599261216030751 22);
  ([Dec 3903223424160000028 21; Dec 9710617143438400323 19], Dec 2853599261216030751 22);
  ([Dec 2503506223199999936 20; Dec 3903223424160000028 21], Dec 2853599261216030751 22);
  ([Dec 2503506223199999936 20; Dec 9710617143438400323 19], Dec 2853599261216030751 22);
  ([Dec 9710617143438400323 19; Dec 3903223424160000028 21], Dec 2853599261216030751 22);
  ([Dec 9710617143438400323 19; Dec 2503506223199999936 20], Dec 2853599261216030751 22);
  ([Dec 3233248155009999826 21; Dec 3060644651510999736 19], Dec 5634730629388120301 22);
  ([Dec 3233248155009999826 21; Dec 6907022866938899996 19], Dec 5634730629388120301 22);
  ([Dec 3060644651510999736 19; Dec 3233248155009999826 21], Dec 5634730629388120301 22);
  ([Dec 3060644651510999736 19; Dec 6907022866938899996 19], Dec 5634730629388120301 22);
  ([Dec 6907022866938899996 19; Dec 3233248155009999826 21], Dec 5634730629388120301 22);
  ([Dec 6907022866938899996 19; Dec 3060644651510999736 19], Dec 5634730629388120301 22);
  ([Dec 6467432112239999802 21; Dec 1070732837302200008 19], Dec 8739334747036685410 22);
  ([Dec 6467432112239999802 21; Dec 8864592841575400506 19], Dec 8739334747036685410 22);
  ([Dec 1070732837302200008 19; Dec 6467432112239999802 21], Dec 8739334747036685410 22);
  ([Dec 1070732837302200008 19; Dec 8864592841575400506 19], Dec 8739334747036685410 22);
  ([Dec 8864592841575400506 19; Dec 6467432112239999802 21], Dec 8739334747036685410 22);
  ([Dec 8864592841575400506 19; Dec 1070732837302200008 19], Dec 8739334747036685410 22);
  ([Dec 3247475491329999790 21; Dec 2299575493455799924 19], Dec 5914094075158284709 22);
  ([Dec 3247475491329999790 21; Dec 7667949751630800392 19], Dec 5914094075158284709 22);
  ([Dec 2299575493455799924 19; Dec 3247475491329999790 21], Dec 5914094075158284709 22);
  ([Dec 2299575493455799924 19; Dec 7667949751630800392 19], Dec 5914094075158284709 22);
  ([Dec 7667949751630800392 19; Dec 3247475491329999790 21], Dec 5914094075158284709 22);
  ([Dec 7667949751630800392 19; Dec 2299575493455799924 19], Dec 5914094075158284709 22);
  ([Dec 8675090806750000022 21; Dec 3370366333057799868 19], Dec 9954196473375169149 22);
  ([Dec 8675090806750000022 21; Dec 6542882758874599691 19], Dec 9954196473375169149 22);
  ([Dec 3370366333057799868 19; Dec 8675090806750000022 21], Dec 9954196473375169149 22);
  ([Dec 3370366333057799868 19; Dec 6542882758874599691 19], Dec 9954196473375169149 22);
  ([Dec 6542882758874599691 19; Dec 8675090806750000022 21], Dec 9954196473375169149 22);
  ([Dec 6542882758874599691 19; Dec 3370366333057799868 19], Dec 9954196473375169149 22);
  ([Dec 1559702646730999967 20; Dec 5625657618206000160 20], Dec 9502063975179899768 22);
  ([Dec 1559702646730999967 20; Dec 9281463973506299814 19], Dec 9502063975179899768 22);
  ([Dec 5625657618206000160 20; Dec 1559702646730999967 20], Dec 9502063975179899768 22);
  ([Dec 5625657618206000160 20; Dec 9281463973506299814 19], Dec 9502063975179899768 22);
  ([Dec 9281463973506299814 19; Dec 1559702646730999967 20], Dec 9502063975179899768 22);
  ([Dec 9281463973506299814 19; Dec 5625657618206000160 20], Dec 9502063975179899768 22);
  ([Dec 1797672125369000062 20; Dec 4024513752123999866 19], Dec 2249182904408725606 21);
  ([Dec 1797672125369000062 20; Dec 5795719035339099712 19], Dec 2249182904408725606 21);
  ([Dec 4024513752123999866 19; Dec 1797672125369000062 20], Dec 2249182904408725606 21);
  ([Dec 4024513752123999866 19; Dec 5795719035339099712 19], Dec 2249182904408725606 21);
  ([Dec 5795719035339099712 19; Dec 1797672125369000062 20], Dec 2249182904408725606 21);
  ([Dec 5795719035339099712 19; Dec 4024513752123999866 19], Dec 2249182904408725606 21);
  ([Dec 1712424535389000038 20; Dec 2436547020108300043 19], Dec 1739359730137359427 21);
  ([Dec 1712424535389000038 20; Dec 7392210526352800404 19], Dec 1739359730137359427 21);
  ([Dec 2436547020108300043 19; Dec 1712424535389000038 20], Dec 1739359730137359427 21);
  ([Dec 2436547020108300043 19; Dec 7392210526352800404 19], Dec 1739359730137359427 21);
  ([Dec 7392210526352800404 19; Dec 1712424535389000038 20], Dec 1739359730137359427 21);
  ([Dec 7392210526352800404 19; Dec 2436547020108300043 19], Dec 1739359730137359427 21);
  ([Dec 2288340534657999983 20; Dec 1653895856145299881 19], Dec 2051199518361976684 21);
  ([Dec 2288340534657999983 20; Dec 8117270090388799542 19], Dec 2051199518361976684 21);
  ([Dec 1653895856145299881 19; Dec 2288340534657999983 20], Dec 2051199518361976684 21);
  ([Dec 1653895856145299881 19; Dec 8117270090388799542 19], Dec 2051199518361976684 21);
  ([Dec 8117270090388799542 19; Dec 2288340534657999983 20], Dec 2051199518361976684 21);
  ([Dec 8117270090388799542 19; Dec 1653895856145299881 19], Dec 2051199518361976684 21);
  ([Dec 3273759728777000250 20; Dec 9930187449584999826 20], Dec 2010880774872081042 21);
  ([Dec 3273759728777000250 20; Dec 8679605282163900259 19], Dec 2010880774872081042 21);
  ([Dec 9930187449584999826 20; Dec 3273759728777000250 20], Dec 2010880774872081042 21);
  ([Dec 9930187449584999826 20; Dec 8679605282163900259 19], Dec 2010880774872081042 21);
  ([Dec 8679605282163900259 19; Dec 3273759728777000250 20], Dec 2010880774872081042 21);
  ([Dec 8679605282163900259 19; Dec 9930187449584999826 20], Dec 2010880774872081042 21);
  ([Dec 3382101234234000109 20; Dec 3084783330690499814 19], Dec 3016582330397532975 21);
  ([Dec 3382101234234000109 20; Dec 6577006545886000533 19], Dec 3016582330397532975 21);
  ([Dec 3084783330690499814 19; Dec 3382101234234000109 20], Dec 3016582330397532975 21);
  ([Dec 3084783330690499814 19; Dec 6577006545886000533 19], Dec 3016582330397532975 21);
  ([Dec 6577006545886000533 19; Dec 3382101234234000109 20], Dec 3016582330397532975 21);
  ([Dec 6577006545886000533 19; Dec 3084783330690499814 19], Dec 3016582330397532975 21);
  ([Dec 3554761446001999947 20; Dec 4606683185921099932 19], Dec 1973145151064799058 21);
  ([Dec 3554761446001999947 20; Dec 5037840669478700351 19], Dec 1973145151064799058 21);
  ([Dec 4606683185921099932 19; Dec 3554761446001999947 20], Dec 1973145151064799058 21);
  ([Dec 4606683185921099932 19; Dec 5037840669478700351 19], Dec 1973145151064799058 21);
  ([Dec 5037840669478700351 19; Dec 3554761446001999947 20], Dec 1973145151064799058 21);
  ([Dec 5037840669478700351 19; Dec 4606683185921099932 19], Dec 1973145151064799058 21);
  ([Dec 5053979030687000273 20; Dec 2188152994539299956 19], Dec 3322022268840134178 21);
  ([Dec 5053979030687000273 20; Dec 7306449102391999739 19], Dec 3322022268840134178 21);
  ([Dec 2188152994539299956 19; Dec 5053979030687000273 20], Dec 3322022268840134178 21);
  ([Dec 2188152994539299956 19; Dec 7306449102391999739 19], Dec 3322022268840134178 21);
  ([Dec 7306449102391999739 19; Dec 5053979030687000273 20], Dec 3322022268840134178 21);
  ([Dec 7306449102391999739 19; Dec 2188152994539299956 19], Dec 3322022268840134178 21);
  ([Dec 5701471491572999983 20; Dec 3792095515602699751 19], Dec 4127152928039229049 21);
  ([Dec 5701471491572999983 20; Dec 5637757335239900192 19], Dec 4127152928039229049 21);
  ([Dec 3792095515602699751 19; Dec 5701471491572999983 20], Dec 4127152928039229049 21);
  ([Dec 3792095515602699751 19; Dec 5637757335239900192 19], Dec 4127152928039229049 21);
  ([Dec 5637757335239900192 19; Dec 5701471491572999983 20], Dec 4127152928039229049 21);
  ([Dec 5637757335239900192 19; Dec 3792095515602699751 19], Dec 4127152928039229049 21);
  ([Dec 6415280642119999821 20; Dec 1429608194181899994 19], Dec 3248028316703205354 21);
  ([Dec 6415280642119999821 20; Dec 7928863741606100302 19], Dec 3248028316703205354 21);
  ([Dec 1429608194181899994 19; Dec 6415280642119999821 20], Dec 3248028316703205354 21);
  ([Dec 1429608194181899994 19; Dec 7928863741606100302 19], Dec 3248028316703205354 21);
  ([Dec 7928863741606100302 19; Dec 6415280642119999821 20], Dec 3248028316703205354 21);
  ([Dec 7928863741606100302 19; Dec 1429608194181899994 19], Dec 3248028316703205354 21);
  ([Dec 8050114828762999775 20; Dec 2837312821059200241 19], Dec 4626389072073301169 21);
  ([Dec 8050114828762999775 20; Dec 6357675696064499782 19], Dec 4626389072073301169 21);
  ([Dec 2837312821059200241 19; Dec 8050114828762999775 20], Dec 4626389072073301169 21);
  ([Dec 2837312821059200241 19; Dec 6357675696064499782 19], Dec 4626389072073301169 21);
  ([Dec 6357675696064499782 19; Dec 8050114828762999775 20], Dec 4626389072073301169 21);
  ([Dec 6357675696064499782 19; Dec 2837312821059200241 19], Dec 4626389072073301169 21);
  ([Dec 1043670681345300055 19; Dec 1967374410044399891 19], Dec 4582460363147139969 21);
  ([Dec 1043670681345300055 19; Dec 6988954908610299777 19], Dec 4582460363147139969 21);
  ([Dec 1967374410044399891 19; Dec 1043670681345300055 19], Dec 4582460363147139969 21);
  ([Dec 1967374410044399891 19; Dec 6988954908610299777 19], Dec 4582460363147139969 21);
  ([Dec 6988954908610299777 19; Dec 1043670681345300055 19], Dec 4582460363147139969 21);
  ([Dec 6988954908610299777 19; Dec 1967374410044399891 19], Dec 4582460363147139969 21);
  ([Dec 1138448944287499959 19; Dec 3558891412116599873 19], Dec 5784762314048835265 21);
  ([Dec 1138448944287499959 19; Dec 5302659643595899475 19], Dec 5784762314048835265 21);
  ([Dec 3558891412116599873 19; Dec 1138448944287499959 19], Dec 5784762314048835265 21);
  ([Dec 3558891412116599873 19; Dec 5302659643595899475 19], Dec 5784762314048835265 21);
  ([Dec 5302659643595899475 19; Dec 1138448944287499959 19], Dec 5784762314048835265 21);
  ([Dec 5302659643595899475 19; Dec 3558891412116599873 19], Dec 5784762314048835265 21);
  ([Dec 1453634877155199900 19; Dec 2598186853519099948 19], Dec 5880558233804585207 21);
  ([Dec 1453634877155199900 19; Dec 5948178269325600231 19], Dec 5880558233804585207 21);
  ([Dec 2598186853519099948 19; Dec 1453634877155199900 19], Dec 5880558233804585207 21);
  ([Dec 2598186853519099948 19; Dec 5948178269325600231 19], Dec 5880558233804585207 21);
  ([Dec 5948178269325600231 19; Dec 1453634877155199900 19], Dec 5880558233804585207 21);
  ([Dec 5948178269325600231 19; Dec 2598186853519099948 19], Dec 5880558233804585207 21);
  ([Dec 1899456528219800044 19; Dec 3219231812312999819 19], Dec 6912351091082700148 21);
  ([Dec 1899456528219800044 19; Dec 4881311659467200137 19], Dec 6912351091082700148 21);
  ([Dec 3219231812312999819 19; Dec 1899456528219800044 19], Dec 6912351091082700148 21);
  ([Dec 3219231812312999819 19; Dec 4881311659467200137 19], Dec 6912351091082700148 21);
  ([Dec 4881311659467200137 19; Dec 1899456528219800044 19], Dec 6912351091082700148 21);
  ([Dec 4881311659467200137 19; Dec 3219231812312999819 19], Dec 6912351091082700148 21)].

(** The switch of FillPointsAndWeights; other orders throw. *)
Definition Triangle_Fill (order : nat) : outcome rule :=
  match order with
  | 0%nat => Ok Triangle_0
  | 1%nat => Ok Triangle_1
  | 2%nat => Ok Triangle_2
  | 3%nat => Ok Triangle_3
  | 4%nat => Ok Triangle_4
  | 5%nat => Ok Triangle_5
  | 6%nat => Ok Triangle_6
  | 7%nat => Ok Triangle_7
  | 8%nat => Ok Triangle_8
  | 9%nat => Ok Triangle_9
  | 10%nat => Ok Triangle_10
  | 11%nat => Ok Triangle_11
  | 12%nat => Ok Triangle_12
  | 13%nat => Ok Triangle_13
  | 14%nat => Ok Triangle_14
  | 15%nat => Ok Triangle_15
  | 16%nat => Ok Triangle_16
  | 17%nat => Ok Triangle_17
  | 18%nat => Ok Triangle_18
  | 19%nat => Ok Triangle_19
  | 20%nat => Ok Triangle_20
  | 21%nat => Ok Triangle_21
  | 22%nat => Ok Triangle_22
  | 23%nat => Ok Triangle_23
  | 24%nat => Ok Triangle_24
  | 25%nat => Ok Triangle_25
  | 26%nat => Ok Triangle_26
  | 27%nat => Ok Triangle_27
  | 28%nat => Ok Triangle_28
  | 29%nat => Ok Triangle_29
  | 30%nat => Ok Triangle_30
  | _ => Throw
  end.
