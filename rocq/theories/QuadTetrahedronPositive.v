(** * The tables of GeDiM/src/Quadrature/Quadrature_Gauss3D_Tetrahedron_PositiveWeights.cpp *)
From Verif Require Import Base QuadModel.
Local Open Scope Z_scope.

(** FillPointsAndWeights, order 0, 1: Quadrature_Gauss3D_Tetrahedron_PositiveWeights.cpp:29-36. *)
Definition TetrahedronPositive_1 : rule := Rule false [
  ([Dec 25000000000000000 17; Dec 25000000000000000 17; Dec 25000000000000000 17], Dec 16666666666666655 17)].

(** FillPointsAndWeights, order 2: Quadrature_Gauss3D_Tetrahedron_PositiveWeights.cpp:38-56. *)
Definition TetrahedronPositive_2 : rule := Rule false [
  ([Dec 36531451881463450 17; Dec 18002969351036546 17; Dec 69232355736274656 19], Dec 50086823222829355 18);
  ([Dec 45746158708559548 17; Dec 15593312049918590 17; Dec 38176535606934675 17], Dec 46462929447761252 18);
  ([Dec 37551502872933986 20; Dec 21607642918484790 17; Dec 43070170707783589 17], Dec 53182322583579078 18);
  ([Dec 12366680032845828 17; Dec 82157254096761967 17; Dec 39933048641498409 18], Dec 16934591412496775 18)].

(** FillPointsAndWeights, order 3: Quadrature_Gauss3D_Tetrahedron_PositiveWeights.cpp:58-84. *)
Definition TetrahedronPositive_3 : rule := Rule false [
  ([Dec 43985894764927508 17; Dec 19011700243928378 17; Dec 11403329444557337 18], Dec 22094671190740798 18);
  ([Dec 12480486216524728 17; Dec 15868516322744061 17; Dec 58566280565521567 17], Dec 37402527819592871 18);
  ([Dec 34544415571973058 17; Dec 10905212211189119 18; Dec 28152380212354616 17], Dec 21344402118457763 18);
  ([Dec 14148275196950416 17; Dec 57122605214911504 17; Dec 14691839008716975 17], Dec 42000663468250446 18);
  ([Dec 37871631782356807 18; Dec 17081692516498900 17; Dec 15281814309092714 17], Dec 23437401610067160 18);
  ([Dec 64142979149569668 17; Dec 16200149169852424 17; Dec 18385035049209791 17], Dec 20387000459557499 18)].

(** FillPointsAndWeights, order 4: Quadrature_Gauss3D_Tetrahedron_PositiveWeights.cpp:86-132. *)
Definition TetrahedronPositive_4 : rule := Rule false [
  ([Dec 10660417256199370 17; Dec 97204644587583280 18; Dec 68439041545303980 17], Dec 17744672359248342 18);
  ([Dec 32923295974264682 17; Dec 29569495206479918 18; Dec 31790356021339439 17], Dec 18372372071416222 18);
  ([Dec 10384411641099292 17; Dec 43271023904776851 17; Dec 35382323920929704 17], Dec 25829352669374403 18);
  ([Dec 30444840243449695 17; Dec 24027666492807273 17; Dec 12680172591539179 17], Dec 32235135341605652 18);
  ([Dec 53800720391618584 17; Dec 12941137378891021 17; Dec 33019041483746481 17], Dec 12693785874259724 18);
  ([Dec 89912600933357793 19; Dec 12154199133392796 17; Dec 30649398842969028 17], Dec 13237780011337543 18);
  ([Dec 43295349048135556 17; Dec 45076587609127677 17; Dec 59456616299433961 18], Dec 11578327656272558 18);
  ([Dec 53341239535745266 18; Dec 41926631387951308 17; Dec 47781435559086420 18], Dec 99888641910932437 19);
  ([Dec 74122888209362281 17; Dec 67223294893383356 18; Dec 35183929773598681 18], Dec 92322998119293911 19);
  ([Dec 81404918402859391 18; Dec 75250850700965499 17; Dec 68099370938206449 18], Dec 92122281926561370 19);
  ([Dec 17469405869723079 17; Dec 40490506727590289 18; Dec 13560701879802644 18], Dec 65418484874733267 19)].

(** FillPointsAndWeights, order 5, 6: Quadrature_Gauss3D_Tetrahedron_PositiveWeights.cpp:134-232. *)
Definition TetrahedronPositive_6 : rule := Rule false [
  ([Dec 24318974248142864 18; Dec 38836084344884517 18; Dec 90292879901361123 17], Dec 11826324752765877 19);
  ([Dec 26784419818357558 17; Dec 64769436930053020 18; Dec 63676750855851372 17], Dec 52515683137843950 19);
  ([Dec 23467795573054177 18; Dec 64775160447105379 18; Dec 39086205067101210 17], Dec 40385478129073837 19);
  ([Dec 63732895294997691 18; Dec 27790366933007776 17; Dec 59490968902179575 17], Dec 81483459837403526 19);
  ([Dec 83678814060055118 18; Dec 66098662414680737 18; Dec 63005455511098940 17], Dec 88388873180282271 19);
  ([Dec 32937971854919856 17; Dec 32511965857702541 17; Dec 32683350461904570 17], Dec 72065494492455544 19);
  ([Dec 30416926534978173 17; Dec 31919428034893110 17; Dec 44383344357208407 18], Dec 11189302702092825 18);
  ([Dec 38288670738245378 18; Dec 32838817123122155 17; Dec 32028743369769230 17], Dec 99702246102381844 19);
  ([Dec 35193919733470425 17; Dec 55099022490725874 18; Dec 38108430890631001 17], Dec 10435745880218545 18);
  ([Dec 15210381130993061 17; Dec 12464996363748623 17; Dec 20123456736442094 17], Dec 10722336995514573 18);
  ([Dec 62432136355342971 17; Dec 65924923160009807 18; Dec 25359367474320027 17], Dec 72650663434381882 19);
  ([Dec 21129765858158636 17; Dec 73545238380694905 19; Dec 25118449527752962 17], Dec 37609445463571423 19);
  ([Dec 63199980942569817 18; Dec 61745572014726879 17; Dec 25844914898392557 17], Dec 77688556877634433 19);
  ([Dec 25582078426498622 17; Dec 27942005294598821 17; Dec 26956992963327198 17], Dec 18766567415677934 18);
  ([Dec 57734578138972681 17; Dec 28772509482646419 17; Dec 64620638073368625 18], Dec 89891684380519910 19);
  ([Dec 65177992763370413 18; Dec 59471730187579563 17; Dec 66603298007603312 18], Dec 82947716819190397 19);
  ([Dec 53006327548101684 17; Dec 66789599781737874 18; Dec 76992717100967376 18], Dec 10511060314253404 18);
  ([Dec 24844954011889481 17; Dec 62654020170888225 17; Dec 62115533183598685 18], Dec 78580050787101959 19);
  ([Dec 21304118323618576 17; Dec 60010583020269070 18; Dec 25842686260703143 18], Dec 42507207111737305 19);
  ([Dec 53996140835914551 18; Dec 27578630046985092 17; Dec 60016149166168577 18], Dec 66190162748470368 19);
  ([Dec 84113895166231833 17; Dec 51325206165202919 18; Dec 37264752138355631 18], Dec 26542465308339600 19);
  ([Dec 87819577775188670 19; Dec 40576051066817921 18; Dec 88600350468910308 18], Dec 17372226206159890 19);
  ([Dec 22865823814023269 18; Dec 90377000133218177 17; Dec 29335721083178966 18], Dec 12068794819778278 19)].

(** FillPointsAndWeights, order 7, 8: Quadrature_Gauss3D_Tetrahedron_PositiveWeights.cpp:234-415. *)
Definition TetrahedronPositive_8 : rule := Rule false [
  ([Dec 17607156126877833 18; Dec 88555942787050639 19; Dec 94856392979900672 17], Dec 29086392255094209 20);
  ([Dec 18907446887003329 17; Dec 36204671928518464 18; Dec 73136736003608904 17], Dec 25106282475171847 19);
  ([Dec 23074349679464926 17; Dec 61133653369188412 17; Dec 55757730304384755 19], Dec 16460861324811193 19);
  ([Dec 25806848872532567 18; Dec 27776757993565174 18; Dec 46654058589091907 17], Dec 16881535417914357 19);
  ([Dec 46486129411092696 18; Dec 15648668504006621 17; Dec 75149653615183787 17], Dec 29354226975222444 19);
  ([Dec 24963708305787544 17; Dec 19554608192260209 17; Dec 54179318246180941 17], Dec 26027315339634378 19);
  ([Dec 49085344327496262 18; Dec 41494159018278395 18; Dec 71717735709394992 17], Dec 29981483163099903 19);
  ([Dec 25791667315430900 17; Dec 22097746499881787 17; Dec 12395923360195236 18], Dec 27548944667587171 19);
  ([Dec 43122383377879846 18; Dec 41507658426998889 17; Dec 49479916931999141 17], Dec 37507609946701831 19);
  ([Dec 19990672903292150 17; Dec 47940665335286570 17; Dec 32009560675039811 17], Dec 21332305621032687 19);
  ([Dec 12397848932781852 17; Dec 62244399461020394 18; Dec 40365477501005875 17], Dec 45424893224121779 19);
  ([Dec 33836738097224109 18; Dec 21251922611752927 17; Dec 50564195098037001 17], Dec 53821667734743886 19);
  ([Dec 38288050116572686 17; Dec 39727545746144288 17; Dec 81733628204791284 18], Dec 46976143166678353 19);
  ([Dec 47213321954967347 17; Dec 45447374262858720 18; Dec 43566699454566282 17], Dec 40263906546355987 19);
  ([Dec 49359008083402001 17; Dec 21613969263007926 17; Dec 39190573197535529 18], Dec 53735422239879005 19);
  ([Dec 25022744629303861 17; Dec 45290749888583420 18; Dec 49314476795906453 17], Dec 60916817846055063 19);
  ([Dec 18224604922336088 17; Dec 42840777073601877 17; Dec 61946961546844731 18], Dec 69279150692455674 19);
  ([Dec 22808018405507902 17; Dec 14251462990889474 17; Dec 12814373976661755 17], Dec 65104516581584405 19);
  ([Dec 30822472099930855 18; Dec 18126219117094550 17; Dec 25934638915961017 17], Dec 41898476784314430 19);
  ([Dec 16469550590032833 17; Dec 24952076607995249 17; Dec 24990555072575496 17], Dec 88104881176708331 19);
  ([Dec 42430301145622754 18; Dec 48622524586615984 17; Dec 27523602729990654 17], Dec 54545457922569110 19);
  ([Dec 20033070687780311 17; Dec 22746204998675512 17; Dec 44895452866369778 17], Dec 92987479662879086 19);
  ([Dec 41189620364841217 17; Dec 15825909334589039 17; Dec 20739173514062348 17], Dec 88923004079758984 19);
  ([Dec 51110607191357682 17; Dec 28827258900935349 18; Dec 22954071307265550 17], Dec 45195897475809321 19);
  ([Dec 48351828029101007 17; Dec 22954061506357476 17; Dec 24201755731748040 17], Dec 66831341902216720 19);
  ([Dec 20964230287064611 17; Dec 48531355763806933 17; Dec 19861997766923120 17], Dec 86299373231680677 19);
  ([Dec 25047192191732082 17; Dec 22610909636660320 18; Dec 22243464249277861 17], Dec 37906201057506094 19);
  ([Dec 36780649734748032 18; Dec 72051116571787177 17; Dec 20436892390732542 17], Dec 24533178625712067 19);
  ([Dec 46181172516826269 17; Dec 46531516041303644 17; Dec 54221833071783935 19], Dec 11495713860626095 19);
  ([Dec 50455006931724646 18; Dec 39380218684505641 18; Dec 17319560868335107 17], Dec 28292048763357927 19);
  ([Dec 74857456074576301 17; Dec 45434530352109592 18; Dec 16329934329935400 17], Dec 28982004270852440 19);
  ([Dec 30950529216133098 18; Dec 42465005407958928 17; Dec 13620624122519834 17], Dec 37598731255837252 19);
  ([Dec 54383015606233757 18; Dec 21626414889065132 17; Dec 51253765133873648 18], Dec 39164872564488428 19);
  ([Dec 70165677606438981 17; Dec 20449181374722297 17; Dec 46868653280873231 18], Dec 33577851411315694 19);
  ([Dec 44780215496031957 18; Dec 71957333007169499 17; Dec 55990644682102082 18], Dec 34241727240937789 19);
  ([Dec 72370949504174886 17; Dec 46200582148664404 18; Dec 43498814451950356 18], Dec 29831339678821479 19);
  ([Dec 35762570878719986 18; Dec 50032967203297640 17; Dec 81120507557058876 19], Dec 12535250586434680 19);
  ([Dec 44877800775248233 17; Dec 41050298145482333 18; Dec 45685365746118027 18], Dec 36540831010869294 19);
  ([Dec 16438693098480811 17; Dec 39856677923423067 18; Dec 34482075478942734 18], Dec 22892954263809052 19);
  ([Dec 15063771178142529 17; Dec 76236788495445285 17; Dec 52438389928703165 18], Dec 25647409020684788 19);
  ([Dec 41392128343882006 17; Dec 49825496178220424 17; Dec 79757870966905411 18], Dec 19775701161788726 19);
  ([Dec 45711843745157047 19; Dec 48689004639021934 18; Dec 22162071096662395 18], Dec 42448341989049571 20);
  ([Dec 94080820283160038 17; Dec 30052247775933016 18; Dec 67196788221531873 19], Dec 34651409450314665 20);
  ([Dec 97187836901517857 20; Dec 95738162605830279 17; Dec 16007984231298320 18], Dec 25232423251917693 20)].

(** FillPointsAndWeights, order 9, 10: Quadrature_Gauss3D_Tetrahedron_PositiveWeights.cpp:417-718. *)
Definition TetrahedronPositive_10 : rule := Rule false [
  ([Dec 11212438646497920 17; Dec 53258892365005184 17; Dec 23624195884576110 17], Dec 34450988893350212 19);
  ([Dec 53258892364993549 17; Dec 11904473103927615 17; Dec 23624195884566077 17], Dec 34450988893420741 19);
  ([Dec 11904473103928252 17; Dec 11212438646502285 17; Dec 23624195884569876 17], Dec 34450988893415090 19);
  ([Dec 11453798631584131 17; Dec 49089534676099722 17; Dec 24954022067238235 18], Dec 20646607776616762 19);
  ([Dec 49089534676055291 17; Dec 36961264485621698 17; Dec 24954022067240070 18], Dec 20646607776622417 19);
  ([Dec 36961264485614787 17; Dec 11453798631602441 17; Dec 24954022067165352 18], Dec 20646607776578403 19);
  ([Dec 12663949087887125 17; Dec 30701960870696335 18; Dec 81147722949819445 17], Dec 11033909837480276 19);
  ([Dec 30701960870745011 18; Dec 31181318752210942 18; Dec 81147722949797096 17], Dec 11033909837487540 19);
  ([Dec 31181318752202133 18; Dec 12663949087858203 17; Dec 81147722949848955 17], Dec 11033909837475043 19);
  ([Dec 62025830128988668 17; Dec 32998418756342823 17; Dec 32403463700912863 18], Dec 10231923733075199 19);
  ([Dec 32998418756371140 17; Dec 17354047445783644 18; Dec 32403463700926324 18], Dec 10231923733079601 19);
  ([Dec 17354047445684456 18; Dec 62025830129005100 17; Dec 32403463700916534 18], Dec 10231923733042460 19);
  ([Dec 45348592435878937 17; Dec 29863508978936393 17; Dec 12855639235995259 17], Dec 42345126418606438 19);
  ([Dec 29863508978933517 17; Dec 11932259349191676 17; Dec 12855639235976335 17], Dec 42345126418595128 19);
  ([Dec 11932259349174155 17; Dec 45348592435899365 17; Dec 12855639235995811 17], Dec 42345126418586463 19);
  ([Dec 40437701448836849 17; Dec 41747625187081006 17; Dec 16133714217116055 17], Dec 20946859843752733 19);
  ([Dec 41747625187090798 17; Dec 16809591469648527 18; Dec 16133714217108092 17], Dec 20946859843731166 19);
  ([Dec 16809591469599011 18; Dec 40437701448836633 17; Dec 16133714217107481 17], Dec 20946859843698996 19);
  ([Dec 78057224582438833 17; Dec 35189582268768171 18; Dec 33073599825543414 18], Dec 11641601674995900 19);
  ([Dec 35189582268708448 18; Dec 15116457208163972 17; Dec 33073599825577102 18], Dec 11641601675003962 19);
  ([Dec 15116457208151762 17; Dec 78057224582415075 17; Dec 33073599825572821 18], Dec 11641601675006048 19);
  ([Dec 63392803439035716 17; Dec 23097258775569951 18; Dec 17336085927365996 17], Dec 21914196944406695 19);
  ([Dec 23097258775556528 18; Dec 16961384756039494 17; Dec 17336085927373163 17], Dec 21914196944394322 19);
  ([Dec 16961384756040238 17; Dec 63392803439030154 17; Dec 17336085927375855 17], Dec 21914196944390787 19);
  ([Dec 63358756531439797 17; Dec 17701835101891766 17; Dec 16505305534639961 17], Dec 22844507802897924 19);
  ([Dec 17701835101894686 17; Dec 24341028320273517 18; Dec 16505305534637510 17], Dec 22844507802891913 19);
  ([Dec 24341028320264226 18; Dec 63358756531426108 17; Dec 16505305534650741 17], Dec 22844507802883959 19);
  ([Dec 30293937757704323 18; Dec 35103092666191343 17; Dec 32660580053264839 18], Dec 15229966560333140 19);
  ([Dec 35103092666177177 17; Dec 58601455552725168 17; Dec 32660580053289964 18], Dec 15229966560340600 19);
  ([Dec 58601455552747717 17; Dec 30293937757721323 18; Dec 32660580053272187 18], Dec 15229966560349050 19);
  ([Dec 30200190732664511 17; Dec 32834552147384155 17; Dec 30302612894209485 17], Dec 44711574729504192 19);
  ([Dec 32834552147382839 17; Dec 66626442257401886 18; Dec 30302612894185482 17], Dec 44711574729514791 19);
  ([Dec 66626442257312748 18; Dec 30200190732674409 17; Dec 30302612894207820 17], Dec 44711574729520099 19);
  ([Dec 41370112844953638 17; Dec 12676431648551173 18; Dec 40907522401187124 17], Dec 18736985584844304 19);
  ([Dec 12676431648545728 18; Dec 16454721588991528 17; Dec 40907522401194774 17], Dec 18736985584823442 19);
  ([Dec 16454721589001103 17; Dec 41370112844943474 17; Dec 40907522401200663 17], Dec 18736985584835992 19);
  ([Dec 12071311163580888 17; Dec 33951306262113812 17; Dec 41109265749486679 17], Dec 46820937424861377 19);
  ([Dec 33951306262090197 17; Dec 12868116824813047 17; Dec 41109265749495805 17], Dec 46820937424902212 19);
  ([Dec 12868116824819364 17; Dec 12071311163585552 17; Dec 41109265749501134 17], Dec 46820937424910704 19);
  ([Dec 15026879025170381 17; Dec 83024946882167827 18; Dec 38496781868964540 18], Dec 20839131667166658 19);
  ([Dec 83024946881963407 18; Dec 72820948099742733 17; Dec 38496781868993947 18], Dec 20839131667141561 19);
  ([Dec 72820948099706873 17; Dec 15026879025175544 17; Dec 38496781868995168 18], Dec 20839131667152871 19);
  ([Dec 51591681661427446 17; Dec 13246701074477152 17; Dec 10744646158505849 17], Dec 45538831991611822 19);
  ([Dec 13246701074464198 17; Dec 24416971105590402 17; Dec 10744646158515403 17], Dec 45538831991617486 19);
  ([Dec 24416971105566457 17; Dec 51591681661444122 17; Dec 10744646158519200 17], Dec 45538831991633741 19);
  ([Dec 12280428562434590 18; Dec 41260083617916971 17; Dec 39790436218571701 17], Dec 19694938648185520 19);
  ([Dec 41260083617920201 17; Dec 17721437307270657 17; Dec 39790436218556574 17], Dec 19694938648253221 19);
  ([Dec 17721437307274238 17; Dec 12280428562444171 18; Dec 39790436218559327 17], Dec 19694938648199662 19);
  ([Dec 32205286417714328 18; Dec 81490228294050293 17; Dec 11937679513633488 17], Dec 11914619091077884 19);
  ([Dec 81490228294079792 17; Dec 33515635505419972 18; Dec 11937679513606972 17], Dec 11914619091066094 19);
  ([Dec 33515635505417404 18; Dec 32205286417728553 18; Dec 11937679513586152 17], Dec 11914619091069770 19);
  ([Dec 17579960724930233 17; Dec 29355116860418085 18; Dec 62084151043564151 17], Dec 27774049091794893 19);
  ([Dec 29355116860371937 18; Dec 17400376545457874 17; Dec 62084151043572167 17], Dec 27774049091755298 19);
  ([Dec 17400376545462784 17; Dec 17579960724921495 17; Dec 62084151043577629 17], Dec 27774049091761838 19);
  ([Dec 31144612490086872 18; Dec 59927380113922679 17; Dec 33659752638302748 17], Dec 16958310152239389 19);
  ([Dec 59927380113951612 17; Dec 32984059987676784 18; Dec 33659752638270657 17], Dec 16958310152251199 19);
  ([Dec 32984059987679400 18; Dec 31144612490078352 18; Dec 33659752638251189 17], Dec 16958310152242644 19);
  ([Dec 33794891982642750 17; Dec 35739084411541500 18; Dec 59253287017089751 17], Dec 18987030975037963 19);
  ([Dec 35739084411545538 18; Dec 33779125591118432 18; Dec 59253287017071365 17], Dec 18987030975030187 19);
  ([Dec 33779125591139526 18; Dec 33794891982609487 17; Dec 59253287017122269 17], Dec 18987030975040438 19);
  ([Dec 55966008885545959 17; Dec 18076024957022707 17; Dec 74387957311675239 19], Dec 13686745541350678 19);
  ([Dec 18076024957005651 17; Dec 25214086584332107 17; Dec 74387957311993422 19], Dec 13686745541369081 19);
  ([Dec 25214086584303363 17; Dec 55966008885570240 17; Dec 74387957312146737 19], Dec 13686745541372192 19);
  ([Dec 94671984829235645 17; Dec 66670804483499602 19; Dec 80675055619046070 19], Dec 13168318579095435 20);
  ([Dec 66670804486589977 19; Dec 38545565697374648 18; Dec 80675055617796809 19], Dec 13168318579197524 20);
  ([Dec 38545565697480244 18; Dec 94671984829185174 17; Dec 80675055621740738 19], Dec 13168318579277532 20);
  ([Dec 87402513276493221 17; Dec 10359366024755479 17; Dec 18554315054345617 18], Dec 28209430652597527 20);
  ([Dec 10359366024800282 17; Dec 38268919330440437 19; Dec 18554315054337051 18], Dec 28209430652452575 20);
  ([Dec 38268919330294643 19; Dec 87402513276516769 17; Dec 18554315054357243 18], Dec 28209430652411380 20);
  ([Dec 25707198076242777 17; Dec 25707198076255072 17; Dec 22878405771246255 17], Dec 77630869974031911 19);
  ([Dec 48448895277673374 19; Dec 48448895275724820 19; Dec 98546533141673986 17], Dec 63652719383180012 21);
  ([Dec 16695976931720635 17; Dec 16695976931758033 17; Dec 49912069204811210 17], Dec 19591843153447725 19);
  ([Dec 31820620082032386 17; Dec 31820620082059226 17; Dec 45381397538629055 18], Dec 46519279480373562 19);
  ([Dec 13365994953239232 17; Dec 13365994953261118 17; Dec 59902015140252740 17], Dec 19028288945829583 19)].

(** FillPointsAndWeights, order 12: Quadrature_Gauss3D_Tetrahedron_PositiveWeights.cpp:720-1210. *)
Definition TetrahedronPositive_12 : rule := Rule false [
  ([Dec 52247155135540169 17; Dec 43127482811150730 17; Dec 10833202312850817 18], Dec 34771688220674719 20);
  ([Dec 43127482811150997 17; Dec 35420418220237115 18; Dec 10833202312850817 18], Dec 34771688220676140 20);
  ([Dec 35420418220232792 18; Dec 52247155135540813 17; Dec 10833202312845921 18], Dec 34771688220659513 20);
  ([Dec 10216956909428958 17; Dec 28878003387744065 18; Dec 24743124363556326 17], Dec 10498461857128846 19);
  ([Dec 28878003387744565 18; Dec 62152118388240563 17; Dec 24743124363555932 17], Dec 10498461857129235 19);
  ([Dec 62152118388240096 17; Dec 10216956909428315 17; Dec 24743124363557167 17], Dec 10498461857129623 19);
  ([Dec 41069331409015108 17; Dec 89552509107014011 18; Dec 36476024919336947 17], Dec 21899086547604858 19);
  ([Dec 89552509107008710 18; Dec 13499392760945989 17; Dec 36476024919337863 17], Dec 21899086547603973 19);
  ([Dec 13499392760945814 17; Dec 41069331409015170 17; Dec 36476024919338229 17], Dec 21899086547603444 19);
  ([Dec 76567784209284007 18; Dec 26005598736275165 17; Dec 61934177978996655 18], Dec 14306258422901264 19);
  ([Dec 26005598736276697 17; Dec 60144205044896659 17; Dec 61934177978993595 18], Dec 14306258422900980 19);
  ([Dec 60144205044895638 17; Dec 76567784209281009 18; Dec 61934177978993595 18], Dec 14306258422900734 19);
  ([Dec 11476751676310626 17; Dec 25990315408583575 17; Dec 23345393195130226 17], Dec 25877797901113862 19);
  ([Dec 25990315408583436 17; Dec 39187539719976372 17; Dec 23345393195130426 17], Dec 25877797901111385 19);
  ([Dec 39187539719975678 17; Dec 11476751676309901 17; Dec 23345393195131015 17], Dec 25877797901108735 19);
  ([Dec 65507963102984157 17; Dec 30506096657721066 17; Dec 26470351509840132 18], Dec 46939308112213995 20);
  ([Dec 30506096657720561 17; Dec 13389050883107656 18; Dec 26470351509840132 18], Dec 46939308112211876 20);
  ([Dec 13389050883110477 18; Dec 65507963102983435 17; Dec 26470351509840746 18], Dec 46939308112218240 20);
  ([Dec 60214854663617090 17; Dec 79943486587173762 18; Dec 19726008533411526 17], Dec 19813308652686708 19);
  ([Dec 79943486587170806 18; Dec 12064788144253705 17; Dec 19726008533412207 17], Dec 19813308652687415 19);
  ([Dec 12064788144253871 17; Dec 60214854663617168 17; Dec 19726008533412290 17], Dec 19813308652687060 19);
  ([Dec 54595046099892119 17; Dec 20134335322814834 18; Dec 31557230285725674 17], Dec 12296728163222826 19);
  ([Dec 20134335322812974 18; Dec 11834290082101011 17; Dec 31557230285725979 17], Dec 12296728163221820 19);
  ([Dec 11834290082100891 17; Dec 54595046099891753 17; Dec 31557230285726101 17], Dec 12296728163221306 19);
  ([Dec 48104263226980210 17; Dec 23379217305788294 17; Dec 26978192498259290 17], Dec 13011726613118817 19);
  ([Dec 23379217305788147 17; Dec 15383269689724977 18; Dec 26978192498258957 17], Dec 13011726613120442 19);
  ([Dec 15383269689724866 18; Dec 48104263226980293 17; Dec 26978192498259218 17], Dec 13011726613120301 19);
  ([Dec 10024975437213597 17; Dec 22084175931337111 17; Dec 45145994950997698 17], Dec 32514268051329199 19);
  ([Dec 22084175931337641 17; Dec 22744853680451491 17; Dec 45145994950997081 17], Dec 32514268051329377 19);
  ([Dec 22744853680451224 17; Dec 10024975437213578 17; Dec 45145994950997820 17], Dec 32514268051327968 19);
  ([Dec 42612797425565280 17; Dec 13012709476202475 17; Dec 12738316872602068 17], Dec 28180784812235713 19);
  ([Dec 13012709476202342 17; Dec 31636176225630913 17; Dec 12738316872601332 17], Dec 28180784812232534 19);
  ([Dec 31636176225630142 17; Dec 42612797425565724 17; Dec 12738316872601516 17], Dec 28180784812233948 19);
  ([Dec 74626051327208620 18; Dec 12803632767886117 17; Dec 80261017892951009 18], Dec 14481262251185868 19);
  ([Dec 12803632767886577 17; Dec 71707660310097165 17; Dec 80261017892949788 18], Dec 14481262251187070 19);
  ([Dec 71707660310097066 17; Dec 74626051327211562 18; Dec 80261017892949788 18], Dec 14481262251186699 19);
  ([Dec 85198504894924398 17; Dec 59196994378421519 18; Dec 17656960190834726 18], Dec 52112178757075464 20);
  ([Dec 59196994378421103 18; Dec 71160996481498193 18; Dec 17656960190833501 18], Dec 52112178757073697 20);
  ([Dec 71160996481496833 18; Dec 85198504894924787 17; Dec 17656960190833501 18], Dec 52112178757074401 20);
  ([Dec 46416106080497505 17; Dec 85681573530243665 18; Dec 42682818675140055 17], Dec 12860526386169386 19);
  ([Dec 85681573530242319 18; Dec 23329178913380648 18; Dec 42682818675139444 17], Dec 12860526386169510 19);
  ([Dec 23329178913380395 18; Dec 46416106080498754 17; Dec 42682818675139444 17], Dec 12860526386169403 19);
  ([Dec 61235487444195220 18; Dec 23241799895638673 17; Dec 69751890095238733 17], Dec 52566226708936070 20);
  ([Dec 23241799895638701 17; Dec 88276126470350907 19; Dec 69751890095238978 17], Dec 52566226708949157 20);
  ([Dec 88276126470330073 19; Dec 61235487444186450 18; Dec 69751890095238611 17], Dec 52566226708940852 20);
  ([Dec 29224826431062295 17; Dec 18590040868376576 17; Dec 50259862335502759 17], Dec 15201310181193206 19);
  ([Dec 18590040868376681 17; Dec 19252703650583111 18; Dec 50259862335502203 17], Dec 15201310181193028 19);
  ([Dec 19252703650583899 18; Dec 29224826431063372 17; Dec 50259862335502270 17], Dec 15201310181193347 19);
  ([Dec 24615216819615916 18; Dec 24359910069936298 18; Dec 85251447165013550 17], Dec 52719786385277737 20);
  ([Dec 24359910069935990 18; Dec 98510401460315256 18; Dec 85251447165013250 17], Dec 52719786385278442 20);
  ([Dec 98510401460304708 18; Dec 24615216819615121 18; Dec 85251447165014527 17], Dec 52719786385273671 20);
  ([Dec 94762619029020265 18; Dec 40450236856326638 17; Dec 29182351556725106 17], Dec 31305630728215828 19);
  ([Dec 40450236856327587 17; Dec 20891149684046770 17; Dec 29182351556724367 17], Dec 31305630728214943 19);
  ([Dec 20891149684046709 17; Dec 94762619029019404 18; Dec 29182351556725011 17], Dec 31305630728215650 19);
  ([Dec 29622279508794808 17; Dec 62018219302691163 18; Dec 56171396372075422 17], Dec 19252967240803338 19);
  ([Dec 62018219302688700 18; Dec 80045021888600854 18; Dec 56171396372076454 17], Dec 19252967240802987 19);
  ([Dec 80045021888606877 18; Dec 29622279508794158 17; Dec 56171396372076399 17], Dec 19252967240803516 19);
  ([Dec 34253199795015132 17; Dec 91720800700744731 19; Dec 48586246073940775 17], Dec 88871535906322099 20);
  ([Dec 91720800700747247 19; Dec 16243346124037150 17; Dec 48586246073941020 17], Dec 88871535906324213 20);
  ([Dec 16243346124036881 17; Dec 34253199795015127 17; Dec 48586246073940653 17], Dec 88871535906313262 20);
  ([Dec 69413997252952853 17; Dec 23627641314443004 18; Dec 26438108150681894 17], Dec 55660452794947519 20);
  ([Dec 23627641314445287 18; Dec 17851304649210167 18; Dec 26438108150681333 17], Dec 55660452794953710 20);
  ([Dec 17851304649209941 18; Dec 69413997252953274 17; Dec 26438108150681267 17], Dec 55660452794952995 20);
  ([Dec 24931564040273930 18; Dec 29729015531710984 17; Dec 29744221741637306 17], Dec 19506389267459347 19);
  ([Dec 29729015531710656 17; Dec 38033606322624280 17; Dec 29744221741637694 17], Dec 19506389267458638 19);
  ([Dec 38033606322624602 17; Dec 24931564040272802 18; Dec 29744221741637233 17], Dec 19506389267458816 19);
  ([Dec 27089020392896934 17; Dec 56066588377001447 17; Dec 15016256012779478 17], Dec 14030871341772985 19);
  ([Dec 56066588377002036 17; Dec 18281352173222298 18; Dec 15016256012779111 17], Dec 14030871341773464 19);
  ([Dec 18281352173223363 18; Dec 27089020392896562 17; Dec 15016256012779233 17], Dec 14030871341773798 19);
  ([Dec 37710639941761737 17; Dec 57487275891360734 17; Dec 30491279486177969 18], Dec 70086907064837378 20);
  ([Dec 57487275891361178 17; Dec 17529562182599157 18; Dec 30491279486177969 18], Dec 70086907064840381 20);
  ([Dec 17529562182601502 18; Dec 37710639941761287 17; Dec 30491279486179804 18], Dec 70086907064851526 20);
  ([Dec 29957554129591349 18; Dec 48334269753205383 17; Dec 47649367468328702 17], Dec 53693007254780611 20);
  ([Dec 48334269753204645 17; Dec 10206073655070119 18; Dec 47649367468329246 17], Dec 53693007254786444 20);
  ([Dec 10206073655068471 18; Dec 29957554129591842 18; Dec 47649367468328580 17], Dec 53693007254784677 20);
  ([Dec 23637803333829163 17; Dec 52675956699419924 17; Dec 25424765116052069 18], Dec 18566467954330035 19);
  ([Dec 52675956699418924 17; Dec 21143763455146186 17; Dec 25424765116050844 18], Dec 18566467954329504 19);
  ([Dec 21143763455145753 17; Dec 23637803333829863 17; Dec 25424765116050230 18], Dec 18566467954329153 19);
  ([Dec 95461848486672862 17; Dec 45795557428785494 19; Dec 17905866007425039 18], Dec 84290479940050492 21);
  ([Dec 45795557428758103 19; Dec 22896093382968486 18; Dec 17905866007423204 18], Dec 84290479940037224 21);
  ([Dec 22896093382966783 18; Dec 95461848486673395 17; Dec 17905866007422590 18], Dec 84290479940034933 21);
  ([Dec 16333095462718961 17; Dec 25611859351093086 18; Dec 11544787129923621 17], Dec 13859680589182338 19);
  ([Dec 25611859351092853 18; Dec 69560931472248133 17; Dec 11544787129923560 17], Dec 13859680589182145 19);
  ([Dec 69560931472247589 17; Dec 16333095462719088 17; Dec 11544787129923927 17], Dec 13859680589183097 19);
  ([Dec 44631551826494231 17; Dec 40288162462845101 17; Dec 26199560756252675 18], Dec 19099333823615159 19);
  ([Dec 40288162462844490 17; Dec 12460329635035577 17; Dec 26199560756252675 18], Dec 19099333823615512 19);
  ([Dec 12460329635034818 17; Dec 44631551826495136 17; Dec 26199560756252061 18], Dec 19099333823615688 19);
  ([Dec 50754860512025490 17; Dec 23164769521725381 17; Dec 12662371323439151 17], Dec 36587068547407290 19);
  ([Dec 23164769521725098 17; Dec 13417998642809734 17; Dec 12662371323439336 17], Dec 36587068547407993 19);
  ([Dec 13417998642809545 17; Dec 50754860512025912 17; Dec 12662371323439520 17], Dec 36587068547407637 19);
  ([Dec 84303254607833933 17; Dec 34385827659347667 18; Dec 99086613262277592 18], Dec 61295694635215105 20);
  ([Dec 34385827659346876 18; Dec 23495013000034905 18; Dec 99086613262273304 18], Dec 61295694635212633 20);
  ([Dec 23495013000035845 18; Dec 84303254607834432 17; Dec 99086613262272694 18], Dec 61295694635214932 20);
  ([Dec 11831715754265457 17; Dec 27420024867732998 18; Dec 70164890411884639 17], Dec 13334326706758309 19);
  ([Dec 27420024867731610 18; Dec 15261391347076506 17; Dec 70164890411884584 17], Dec 13334326706758097 19);
  ([Dec 15261391347076586 17; Dec 11831715754265074 17; Dec 70164890411884950 17], Dec 13334326706758255 19);
  ([Dec 83125156112138721 18; Dec 68983951036990088 17; Dec 24081095536741707 18], Dec 13077514257282743 19);
  ([Dec 68983951036989488 17; Dec 20295423798122136 17; Dec 24081095536742318 18], Dec 13077514257283467 19);
  ([Dec 20295423798122017 17; Dec 83125156112139761 18; Dec 24081095536742318 18], Dec 13077514257283415 19);
  ([Dec 48910981472679943 17; Dec 36700989373749937 17; Dec 11512444438172977 17], Dec 20261229364023294 19);
  ([Dec 36700989373750098 17; Dec 28755847153970865 18; Dec 11512444438172732 17], Dec 20261229364022765 19);
  ([Dec 28755847153970261 18; Dec 48910981472680076 17; Dec 11512444438172915 17], Dec 20261229364022582 19);
  ([Dec 74423850766316346 17; Dec 43078321607141756 19; Dec 15234372051626938 17], Dec 47266648548845928 20);
  ([Dec 43078321607122327 19; Dec 99109939659851681 18; Dec 15234372051627243 17], Dec 47266648548842735 20);
  ([Dec 99109939659854956 18; Dec 74423850766316191 17; Dec 15234372051627121 17], Dec 47266648548842735 20);
  ([Dec 85890443918452186 17; Dec 11764534481603789 17; Dec 19816177959562382 18], Dec 21490934536169847 20);
  ([Dec 11764534481603509 17; Dec 36340380398753661 19; Dec 19816177959561157 18], Dec 21490934536166841 20);
  ([Dec 36340380398744926 19; Dec 85890443918452464 17; Dec 19816177959561157 18], Dec 21490934536166136 20);
  ([Dec 79398884991222496 17; Dec 35570953772691705 19; Dec 33054779177556691 18], Dec 34938896941761688 20);
  ([Dec 35570953772685655 19; Dec 16939927553295059 17; Dec 33054779177557302 18], Dec 34938896941761688 20);
  ([Dec 16939927553294748 17; Dec 79398884991222662 17; Dec 33054779177557302 18], Dec 34938896941762041 20);
  ([Dec 21909123983451769 19; Dec 29064176223692312 17; Dec 67226686877716557 17], Dec 36951072813010876 20);
  ([Dec 29064176223691901 17; Dec 34900456587567713 18; Dec 67226686877717290 17], Dec 36951072813002213 20);
  ([Dec 34900456587567782 18; Dec 21909123983389137 19; Dec 67226686877716746 17], Dec 36951072812999735 20);
  ([Dec 69250141758804740 17; Dec 72829127116885495 18; Dec 52457122101769280 20], Dec 43580724293479074 20);
  ([Dec 72829127116883108 18; Dec 23414488407404874 17; Dec 52457122101646895 20], Dec 43580724293476597 20);
  ([Dec 23414488407405021 17; Dec 69250141758805106 17; Dec 52457122101463329 20], Dec 43580724293473773 20);
  ([Dec 11768433971455625 17; Dec 11768433971455890 17; Dec 64694698085632818 17], Dec 18509975122165641 19);
  ([Dec 53360770196437613 19; Dec 53360770196516742 19; Dec 98399176894105511 17], Dec 33366657039340461 21);
  ([Dec 33249695997663575 17; Dec 33249695997664952 17; Dec 25091200700745778 19], Dec 82382590694706501 20);
  ([Dec 30532958433605634 17; Dec 30532958433606106 17; Dec 84011246991819749 18], Dec 42528588002163793 19);
  ([Dec 24821237155622891 17; Dec 24821237155622405 17; Dec 25536288533132812 17], Dec 49174945629996396 19)].

(** FillPointsAndWeights, order 14: Quadrature_Gauss3D_Tetrahedron_PositiveWeights.cpp:1212-1922. *)
Definition TetrahedronPositive_14 : rule := Rule false [
  ([Dec 21536932251427968 17; Dec 71623804800797261 18; Dec 66140784299945868 18], Dec 72003111291315495 20);
  ([Dec 71623804800156440 18; Dec 64686608838484927 17; Dec 66140784299324920 18], Dec 72003111291573773 20);
  ([Dec 64686608838454340 17; Dec 21536932251507912 17; Dec 66140784299280206 18], Dec 72003111292065741 20);
  ([Dec 84003118730168955 18; Dec 24032632597437192 17; Dec 10503653090557023 17], Dec 11166085861902010 19);
  ([Dec 24032632597186115 17; Dec 57063402438971900 17; Dec 10503653090825305 17], Dec 11166085861889566 19);
  ([Dec 57063402438994126 17; Dec 84003118729865489 18; Dec 10503653090737673 17], Dec 11166085861845372 19);
  ([Dec 72200749784083862 17; Dec 14555376263080011 18; Dec 24311158083453549 17], Dec 25950618726125918 20);
  ([Dec 14555376263444395 18; Dec 20325545061407612 18; Dec 24311158083562942 17], Dec 25950618727186051 20);
  ([Dec 20325545061458714 18; Dec 72200749784010687 17; Dec 24311158083537057 17], Dec 25950618725533716 20);
  ([Dec 54975956322040953 17; Dec 12529059808041088 18; Dec 12194064612228628 17], Dec 61392967004934612 20);
  ([Dec 12529059808103616 18; Dec 31577073085006852 17; Dec 12194064612155939 17], Dec 61392967005271019 20);
  ([Dec 31577073085129631 17; Dec 54975956321856678 17; Dec 12194064612202725 17], Dec 61392967005406967 20);
  ([Dec 51751352571723130 17; Dec 38456209686503567 17; Dec 12946333151848439 18], Dec 57907882537745444 20);
  ([Dec 38456209686477211 17; Dec 84978044265666325 18; Dec 12946333151891304 18], Dec 57907882537798288 20);
  ([Dec 84978044265930378 18; Dec 51751352571793174 17; Dec 12946333151605963 18], Dec 57907882537461177 20);
  ([Dec 16775247028179938 17; Dec 35854452716358104 17; Dec 34655632628529343 17], Dec 18482705192122309 19);
  ([Dec 35854452716452889 17; Dec 12714667626975829 17; Dec 34655632628403804 17], Dec 18482705192153245 19);
  ([Dec 12714667626909165 17; Dec 16775247028324491 17; Dec 34655632628380045 17], Dec 18482705191982655 19);
  ([Dec 65338801886631170 17; Dec 22473267551866205 17; Dec 16992627065668231 18], Dec 64521156282135964 20);
  ([Dec 22473267551858678 17; Dec 10488667854884898 17; Dec 16992627065998273 18], Dec 64521156282870121 20);
  ([Dec 10488667854953983 17; Dec 65338801886697573 17; Dec 16992627065828644 18], Dec 64521156282494304 20);
  ([Dec 30640477477896050 17; Dec 89235684687598460 18; Dec 92817154000513546 18], Dec 14250918814431503 19);
  ([Dec 89235684688617700 18; Dec 51154238653290840 17; Dec 92817153999807500 18], Dec 14250918814340448 19);
  ([Dec 51154238653258643 17; Dec 30640477477872691 17; Dec 92817154000416804 18], Dec 14250918814463253 19);
  ([Dec 54047976806572673 17; Dec 72943553813042405 19; Dec 24537631522293177 17], Dec 50511962006144810 20);
  ([Dec 72943553815516902 19; Dec 20684956133010132 17; Dec 24537631522168768 17], Dec 50511962006668772 20);
  ([Dec 20684956133125032 17; Dec 54047976806541520 17; Dec 24537631522196007 17], Dec 50511962006699704 20);
  ([Dec 30898469281738733 17; Dec 97372033635329230 18; Dec 49290887213599666 17], Dec 15179779352933324 19);
  ([Dec 97372033636344460 18; Dec 10073440141218457 17; Dec 49290887213283741 17], Dec 15179779352850311 19);
  ([Dec 10073440141062294 17; Dec 30898469281773150 17; Dec 49290887213695506 17], Dec 15179779352944799 19);
  ([Dec 92473636178325106 19; Dec 39901390622718119 17; Dec 58290374361211106 17], Dec 16751105250402317 20);
  ([Dec 39901390622540300 17; Dec 88349865430195629 19; Dec 58290374361367014 17], Dec 16751105250589681 20);
  ([Dec 88349865430865093 19; Dec 92473636182040242 19; Dec 58290374361686847 17], Dec 16751105250894976 20);
  ([Dec 58327801599222640 17; Dec 21520825534560917 18; Dec 37912080846046381 17], Dec 34411881507889313 20);
  ([Dec 21520825534507963 18; Dec 16080350012691674 18; Dec 37912080846438173 17], Dec 34411881507765568 20);
  ([Dec 16080350013137741 18; Dec 58327801599371887 17; Dec 37912080845879076 17], Dec 34411881507963912 20);
  ([Dec 89896506053857483 17; Dec 68833173958859906 18; Dec 14467621640463637 18], Dec 16642515597055295 20);
  ([Dec 68833173958335339 18; Dec 17734143862154522 18; Dec 14467621640648560 18], Dec 16642515597261454 20);
  ([Dec 17734143862307861 18; Dec 89896506053866365 17; Dec 14467621640216843 18], Dec 16642515596955522 20);
  ([Dec 38464570360739658 17; Dec 27476239716157369 19; Dec 27645570880418396 17], Dec 33555287854752003 20);
  ([Dec 27476239713552001 19; Dec 33615096361651403 17; Dec 27645570880379949 17], Dec 33555287854544291 20);
  ([Dec 33615096361808794 17; Dec 38464570360484696 17; Dec 27645570880599035 17], Dec 33555287853835239 20);
  ([Dec 22735638687752835 17; Dec 53039778396606752 17; Dec 85689669051055798 19], Dec 63369534654828083 20);
  ([Dec 53039778396647430 17; Dec 23367686225072859 17; Dec 85689669051355610 19], Dec 63369534654789009 20);
  ([Dec 23367686225047396 17; Dec 22735638687684148 17; Dec 85689669051962052 19], Dec 63369534655030124 20);
  ([Dec 37618181369129422 17; Dec 47308239457860812 17; Dec 72361551204518634 18], Dec 13681663199158500 19);
  ([Dec 47308239457842877 17; Dec 78374240525731748 18; Dec 72361551204655788 18], Dec 13681663199072197 19);
  ([Dec 78374240525304326 18; Dec 37618181369319237 17; Dec 72361551204900135 18], Dec 13681663198938977 19);
  ([Dec 35085999644596794 17; Dec 55221821043452890 17; Dec 49313252260672112 19], Dec 33972253178854466 20);
  ([Dec 55221821043427333 17; Dec 91990467893655725 18; Dec 49313252264273051 19], Dec 33972253179834872 20);
  ([Dec 91990467893043840 18; Dec 35085999644508153 17; Dec 49313252269520963 19], Dec 33972253180672440 20);
  ([Dec 13411164646971153 18; Dec 66129820367822356 17; Dec 96012829340792735 18], Dec 63487901990767314 20);
  ([Dec 66129820367832304 17; Dec 22927780233386774 17; Dec 96012829340657413 18], Dec 63487901991223753 20);
  ([Dec 22927780233499728 17; Dec 13411164647075591 18; Dec 96012829340418562 18], Dec 63487901991035134 20);
  ([Dec 83438389057758788 17; Dec 22289636444338512 18; Dec 12428033912177859 17], Dec 28962346741146953 20);
  ([Dec 22289636444387761 18; Dec 19046133856296638 18; Dec 12428033912088392 17], Dec 28962346741212363 20);
  ([Dec 19046133856306050 18; Dec 83438389057593998 17; Dec 12428033912336890 17], Dec 28962346741429800 20);
  ([Dec 26125966949594820 17; Dec 76675079395351342 19; Dec 43044133981908456 17], Dec 65831086309692006 20);
  ([Dec 76675079396827835 19; Dec 30063148274454637 17; Dec 43044133981972510 17], Dec 65831086310302585 20);
  ([Dec 30063148274476842 17; Dec 26125966949521728 17; Dec 43044133982028482 17], Dec 65831086309779327 20);
  ([Dec 62304046779080829 18; Dec 21600654434562200 17; Dec 21451162810888516 17], Dec 17443832390316297 19);
  ([Dec 21600654434621916 17; Dec 50717778076467657 17; Dec 21451162811032870 17], Dec 17443832390199835 19);
  ([Dec 50717778076517872 17; Dec 62304046778809297 18; Dec 21451162810991570 17], Dec 17443832390271839 19);
  ([Dec 47392585491525713 17; Dec 39429915689815509 17; Dec 11453359412867868 17], Dec 90406821644326636 20);
  ([Dec 39429915690011097 17; Dec 17241394057918524 18; Dec 11453359412850905 17], Dec 90406821644561399 20);
  ([Dec 17241394057938734 18; Dec 47392585491461925 17; Dec 11453359412891567 17], Dec 90406821644849883 20);
  ([Dec 79687330561578007 18; Dec 18830992564021348 18; Dec 88191632746650905 17], Dec 26235085677843900 20);
  ([Dec 18830992563699047 18; Dec 19565349407685992 18; Dec 88191632746880555 17], Dec 26235085677183637 20);
  ([Dec 19565349407989163 18; Dec 79687330562542680 18; Dec 88191632746542514 17], Dec 26235085678062042 20);
  ([Dec 98577040799585042 18; Dec 19749951346152081 18; Dec 75861812032956791 18], Dec 51192728258113831 20);
  ([Dec 19749951346139213 18; Dec 80581119582262761 17; Dec 75861812032310710 18], Dec 51192728258074062 20);
  ([Dec 80581119582197847 17; Dec 98577040799089799 18; Dec 75861812032728959 18], Dec 51192728258044713 20);
  ([Dec 77099002292628060 17; Dec 19522912627665978 18; Dec 10156208792588403 18], Dec 25173054908368778 20);
  ([Dec 19522912627698515 18; Dec 19933085565366751 17; Dec 10156208792659415 18], Dec 25173054908493407 20);
  ([Dec 19933085565342362 17; Dec 77099002292621976 17; Dec 10156208792704763 18], Dec 25173054908524166 20);
  ([Dec 45264887199536130 17; Dec 17834349061354576 17; Dec 21415536427038953 17], Dec 25078657023787092 19);
  ([Dec 17834349061310426 17; Dec 15485227311971955 17; Dec 21415536427178963 17], Dec 25078657023794694 19);
  ([Dec 15485227312058689 17; Dec 45264887199480769 17; Dec 21415536427096479 17], Dec 25078657023869470 19);
  ([Dec 40759326740823859 18; Dec 46049657509369166 18; Dec 51632276820884782 17], Dec 95454363063129000 20);
  ([Dec 46049657509022186 18; Dec 39686824754176542 17; Dec 51632276820908285 17], Dec 95454363062002926 20);
  ([Dec 39686824754112954 17; Dec 40759326740620799 18; Dec 51632276820926726 17], Dec 95454363062688998 20);
  ([Dec 20566325305419961 17; Dec 54111261308966610 18; Dec 20611451727047225 17], Dec 16739002367449065 19);
  ([Dec 54111261309287978 18; Dec 53411096836574756 17; Dec 20611451726976579 17], Dec 16739002367584176 19);
  ([Dec 53411096836623129 17; Dec 20566325305406297 17; Dec 20611451727070371 17], Dec 16739002367579475 19);
  ([Dec 22353314623667850 17; Dec 65021009791394768 17; Dec 26421594174992170 18], Dec 91016488188181907 20);
  ([Dec 65021009791527107 17; Dec 99835161674298456 18; Dec 26421594174907050 18], Dec 91016488187413988 20);
  ([Dec 99835161674554404 18; Dec 22353314623542364 17; Dec 26421594174799293 18], Dec 91016488186364632 20);
  ([Dec 71365091252099042 18; Dec 77145314729770459 18; Dec 65825287968653601 17], Dec 12249169070411457 19);
  ([Dec 77145314729413120 18; Dec 19323671432825346 17; Dec 65825287969072588 17], Dec 12249169070348825 19);
  ([Dec 19323671432918330 17; Dec 71365091251182747 18; Dec 65825287968999047 17], Dec 12249169070348434 19);
  ([Dec 70615325459019962 17; Dec 19406750685966145 18; Dec 75436624792255103 18], Dec 68021259010238029 20);
  ([Dec 19406750685986827 18; Dec 19900336993117773 17; Dec 75436624792241641 18], Dec 68021259010205503 20);
  ([Dec 19900336993159873 17; Dec 70615325458972422 17; Dec 75436624792675808 18], Dec 68021259010928525 20);
  ([Dec 78776789862437691 17; Dec 94095000643040938 18; Dec 19310788493371769 18], Dec 60400342404496861 20);
  ([Dec 94095000642894763 18; Dec 98826312239402719 18; Dec 19310788493374829 18], Dec 60400342404593734 20);
  ([Dec 98826312239710293 18; Dec 78776789862415308 17; Dec 19310788493374219 18], Dec 60400342404584009 20);
  ([Dec 76155505576095084 17; Dec 20392319120066632 17; Dec 14400537420360376 18], Dec 32793268910110318 20);
  ([Dec 20392319120023580 17; Dec 20121215618030514 18; Dec 14400537420302213 18], Dec 32793268910043678 20);
  ([Dec 20121215618045314 18; Dec 76155505576107974 17; Dec 14400537420297317 18], Dec 32793268910045797 20);
  ([Dec 35026145151799376 17; Dec 46375777617011033 18; Dec 24123871535757513 17], Dec 19127902326742758 19);
  ([Dec 46375777617043305 18; Dec 36212405550663512 17; Dec 24123871535784844 17], Dec 19127902326829024 19);
  ([Dec 36212405550780119 17; Dec 35026145151815025 17; Dec 24123871535740932 17], Dec 19127902326753544 19);
  ([Dec 16100456561349916 17; Dec 38305467110045135 18; Dec 38636881567317050 17], Dec 16030264549262434 19);
  ([Dec 38305467109791956 18; Dec 41432115160378902 17; Dec 38636881567304004 17], Dec 16030264549198373 19);
  ([Dec 41432115160271393 17; Dec 16100456561387297 17; Dec 38636881567332110 17], Dec 16030264549219797 19);
  ([Dec 97041254259199988 18; Dec 28515106751575831 17; Dec 36398508958365577 17], Dec 24502975742323953 19);
  ([Dec 28515106751538383 17; Dec 25382258864258966 17; Dec 36398508958245185 17], Dec 24502975742393424 19);
  ([Dec 25382258864237867 17; Dec 97041254259352172 18; Dec 36398508958336301 17], Dec 24502975742462896 19);
  ([Dec 18774198747380001 18; Dec 10144050962237768 17; Dec 18430495314928266 17], Dec 80765546993278117 20);
  ([Dec 10144050962235554 17; Dec 69548033848056789 17; Dec 18430495314955578 17], Dec 80765546994332590 20);
  ([Dec 69548033848057755 17; Dec 18774198747505355 18; Dec 18430495314936840 17], Dec 80765546994098533 20);
  ([Dec 18232037716882213 18; Dec 67569492766879657 17; Dec 21028448189471335 17], Dec 82183513576715688 20);
  ([Dec 67569492766944139 17; Dec 95788552719089037 18; Dec 21028448189462956 17], Dec 82183513576064441 20);
  ([Dec 95788552719600392 18; Dec 18232037716781162 18; Dec 21028448189458029 17], Dec 82183513576009634 20);
  ([Dec 82098005699696042 19; Dec 29354885057775287 17; Dec 60062135146688778 17], Dec 57739324079458386 20);
  ([Dec 29354885057703356 17; Dec 97619997385383378 18; Dec 60062135146769913 17], Dec 57739324079175008 20);
  ([Dec 97619997385021154 18; Dec 82098005699678331 19; Dec 60062135146692819 17], Dec 57739324079346659 20);
  ([Dec 20767708028302503 17; Dec 50354454726257147 17; Dec 79081518682363058 18], Dec 22049290401975905 19);
  ([Dec 50354454726258513 17; Dec 20969685377178660 17; Dec 79081518682243029 18], Dec 22049290401969543 19);
  ([Dec 20969685377192271 17; Dec 20767708028259280 17; Dec 79081518682954613 18], Dec 22049290402084976 19);
  ([Dec 57834473542716813 17; Dec 38230094649186747 17; Dec 22555424121226918 18], Dec 47251374410969778 20);
  ([Dec 38230094649173052 17; Dec 16798893959684591 18; Dec 22555424121166272 18], Dec 47251374410753761 20);
  ([Dec 16798893959706934 18; Dec 57834473542727471 17; Dec 22555424121266723 18], Dec 47251374410967831 20);
  ([Dec 84790544759942454 17; Dec 19322372748176331 18; Dec 56383854447013423 18], Dec 43682384903406156 20);
  ([Dec 19322372748183228 18; Dec 76388325205279328 18; Dec 56383854447355122 18], Dec 43682384903025732 20);
  ([Dec 76388325204960708 18; Dec 84790544760031272 17; Dec 56383854446619676 18], Dec 43682384903561897 20);
  ([Dec 11548607976972973 17; Dec 11145515833851258 17; Dec 76275640927430510 17], Dec 52397375957974313 20);
  ([Dec 11145515833869718 17; Dec 10302352616825355 18; Dec 76275640927434807 17], Dec 52397375956420803 20);
  ([Dec 10302352617070172 18; Dec 11548607977007068 17; Dec 76275640927402044 17], Dec 52397375957133211 20);
  ([Dec 29460356729192699 18; Dec 17754788331360977 17; Dec 40302415079961385 17], Dec 15217698554902855 19);
  ([Dec 17754788331433513 17; Dec 38996760915640377 17; Dec 40302415080009524 17], Dec 15217698554851129 19);
  ([Dec 38996760915675660 17; Dec 29460356729184456 18; Dec 40302415080032356 17], Dec 15217698554892602 19);
  ([Dec 19552219375788615 17; Dec 38222189528828721 18; Dec 56285520722154647 17], Dec 15499925409598882 19);
  ([Dec 38222189529104778 18; Dec 20340040949150365 17; Dec 56285520722145765 17], Dec 15499925409594075 19);
  ([Dec 20340040949159993 17; Dec 19552219375769733 17; Dec 56285520722145344 17], Dec 15499925409610798 19);
  ([Dec 58019576240133575 17; Dec 17482878960967951 18; Dec 23045727115652344 18], Dec 51342740759962387 20);
  ([Dec 17482878960898424 18; Dec 37927563152224414 17; Dec 23045727115630316 18], Dec 51342740759676906 20);
  ([Dec 37927563152201488 17; Dec 58019576240141069 17; Dec 23045727115632766 18], Dec 51342740759829984 20);
  ([Dec 91207184285875736 18; Dec 41101314112485104 19; Dec 39899049286349325 17], Dec 37954037806018628 20);
  ([Dec 41101314115174169 19; Dec 50569219143916833 17; Dec 39899049286503574 17], Dec 37954037806408415 20);
  ([Dec 50569219143833621 17; Dec 91207184285574672 18; Dec 39899049286447119 17], Dec 37954037806870334 20);
  ([Dec 47888447642982588 19; Dec 95265919105842545 17; Dec 33299610330633729 18], Dec 51040378635430280 21);
  ([Dec 95265919105902686 17; Dec 92523538464268085 19; Dec 33299610330241210 18], Dec 51040378634203627 21);
  ([Dec 92523538460645028 19; Dec 47888447639308799 19; Dec 33299610330042785 18], Dec 51040378631934697 21);
  ([Dec 38598018918754795 17; Dec 39199335018389064 17; Dec 30608282527645660 18], Dec 15744566170082218 19);
  ([Dec 39199335018335713 17; Dec 19141817810078371 17; Dec 30608282527723438 18], Dec 15744566170081864 19);
  ([Dec 19141817810099193 17; Dec 38598018918692173 17; Dec 30608282527640765 18], Dec 15744566170109672 19);
  ([Dec 54793562618520197 17; Dec 67947099032635516 18; Dec 30361359236494129 17], Dec 16792656914285011 19);
  ([Dec 67947099032254862 18; Dec 80503682416860262 18; Dec 30361359236500562 17], Dec 16792656914243929 19);
  ([Dec 80503682417476713 18; Dec 54793562618495240 17; Dec 30361359236453539 17], Dec 16792656914316017 19);
  ([Dec 15380603608032287 17; Dec 33229608338548672 17; Dec 16443270977701405 17], Dec 29834456580178021 19);
  ([Dec 33229608338574895 17; Dec 34946517075681627 17; Dec 16443270977720448 17], Dec 29834456580192341 19);
  ([Dec 34946517075658023 17; Dec 15380603608034293 17; Dec 16443270977711386 17], Dec 29834456580193403 19);
  ([Dec 68014691776350766 17; Dec 10151715917024429 17; Dec 11627248810442477 17], Dec 16764283713183727 19);
  ([Dec 10151715916997768 17; Dec 10206343496184400 17; Dec 11627248810455031 17], Dec 16764283713183198 19);
  ([Dec 10206343496165496 17; Dec 68014691776366409 17; Dec 11627248810426985 17], Dec 16764283713199689 19);
  ([Dec 56014176948831823 19; Dec 10403477450915695 17; Dec 60294133196574395 17], Dec 51583716490032918 20);
  ([Dec 10403477450946137 17; Dec 28742247582968500 17; Dec 60294133196614752 17], Dec 51583716489677777 20);
  ([Dec 28742247583037528 17; Dec 56014176946637684 19; Dec 60294133196592459 17], Dec 51583716489362057 20);
  ([Dec 22069294158669400 18; Dec 21294253714595562 17; Dec 74370742105696541 17], Dec 47807585051956570 20);
  ([Dec 21294253714467620 17; Dec 21280747638370706 18; Dec 74370742105824594 17], Dec 47807585051857571 20);
  ([Dec 21280747638562431 18; Dec 22069294158889440 18; Dec 74370742106014176 17], Dec 47807585052433153 20);
  ([Dec 92329996515747537 17; Dec 13275531940829199 18; Dec 20100586491161548 19], Dec 64425389486288159 21);
  ([Dec 13275531940707628 18; Dec 61414444252785194 18; Dec 20100586498099622 19], Dec 64425389488642992 21);
  ([Dec 61414444252497695 18; Dec 92329996515854440 17; Dec 20100586483874361 19], Dec 64425389482893861 21);
  ([Dec 32398093295696682 19; Dec 84008876614316760 18; Dec 38629615027093683 17], Dec 37611053899940948 20);
  ([Dec 84008876614980452 18; Dec 52645516378427148 17; Dec 38629615027055958 17], Dec 37611053901267128 20);
  ([Dec 52645516378484658 17; Dec 32398093299370045 19; Dec 38629615027122094 17], Dec 37611053900670860 20);
  ([Dec 51564396354686004 17; Dec 23494061248840276 17; Dec 24749127838673157 17], Dec 43444375929611081 20);
  ([Dec 23494061248997605 17; Dec 19241455782568889 19; Dec 24749127838584020 17], Dec 43444375930333387 20);
  ([Dec 19241455782303188 19; Dec 51564396354539177 17; Dec 24749127838747612 17], Dec 43444375930493719 20);
  ([Dec 30291811932930135 17; Dec 30291811932937640 17; Dec 91245642012342629 18], Dec 24815884502453990 19);
  ([Dec 68577036809601578 19; Dec 68577036814607755 19; Dec 97942688895784069 17], Dec 22105078592571998 21);
  ([Dec 16588752025509207 17; Dec 16588752025504508 17; Dec 50233743923516794 17], Dec 27032117308417656 19);
  ([Dec 77815923168825976 18; Dec 77815923168173790 18; Dec 76655223049187848 17], Dec 79328723256770614 20);
  ([Dec 33172395261500148 17; Dec 33172395261398968 17; Dec 48281421559871456 19], Dec 47932547560531794 20);
  ([Dec 24322103194151506 17; Dec 24322103194167013 17; Dec 27033690417470868 17], Dec 31781597181588499 19)].

(** The switch of FillPointsAndWeights; other orders throw. *)
Definition TetrahedronPositive_Fill (order : nat) : outcome rule :=
  match order with
  | 0%nat | 1%nat => Ok TetrahedronPositive_1
  | 2%nat => Ok TetrahedronPositive_2
  | 3%nat => Ok TetrahedronPositive_3
  | 4%nat => Ok TetrahedronPositive_4
  | 5%nat | 6%nat => Ok TetrahedronPositive_6
  | 7%nat | 8%nat => Ok TetrahedronPositive_8
  | 9%nat | 10%nat => Ok TetrahedronPositive_10
  | 12%nat => Ok TetrahedronPositive_12
  | 14%nat => Ok TetrahedronPositive_14
  | _ => Throw
  end.
