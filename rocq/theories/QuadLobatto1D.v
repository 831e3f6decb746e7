(** * The tables of GeDiM/src/Quadrature/Quadrature_GaussLobatto1D.hpp *)
From Verif Require Import Base QuadModel.
Local Open Scope Z_scope.

(** FillPointsAndWeights, order 0, 1: Quadrature_GaussLobatto1D.hpp:33-40. *)
Definition Lobatto1D_1 : rule := Rule true [
  ([Dec 0 16], Dec 50000000000000000 17);
  ([Dec 10000000000000000 16], Dec 50000000000000000 17)].

(** FillPointsAndWeights, order 2, 3: Quadrature_GaussLobatto1D.hpp:43-52. *)
Definition Lobatto1D_3 : rule := Rule true [
  ([Dec 0 16], Dec 16666666666666649 17);
  ([Dec 50000000000000000 17], Dec 66666666666666652 17);
  ([Dec 10000000000000000 16], Dec 16666666666666649 17)].

(** FillPointsAndWeights, order 4, 5: Quadrature_GaussLobatto1D.hpp:55-66. *)
Definition Lobatto1D_5 : rule := Rule true [
  ([Dec 0 16], Dec 83333333333333329 18);
  ([Dec 27639320225002106 17], Dec 41666666666666663 17);
  ([Dec 72360679774997894 17], Dec 41666666666666663 17);
  ([Dec 10000000000000000 16], Dec 83333333333333329 18)].

(** FillPointsAndWeights, order 6, 7: Quadrature_GaussLobatto1D.hpp:69-82. *)
Definition Lobatto1D_7 : rule := Rule true [
  ([Dec 0 16], Dec 50000000000000003 18);
  ([Dec 17267316464601151 17], Dec 27222222222222220 17);
  ([Dec 50000000000000000 17], Dec 35555555555555557 17);
  ([Dec 82732683535398843 17], Dec 27222222222222220 17);
  ([Dec 10000000000000000 16], Dec 50000000000000003 18)].

(** FillPointsAndWeights, order 8, 9: Quadrature_GaussLobatto1D.hpp:85-100. *)
Definition Lobatto1D_9 : rule := Rule true [
  ([Dec 0 16], Dec 33333333333333333 18);
  ([Dec 11747233803526763 17], Dec 18923747814892350 17);
  ([Dec 35738424175967742 17], Dec 27742918851774317 17);
  ([Dec 64261575824032258 17], Dec 27742918851774317 17);
  ([Dec 88252766196473242 17], Dec 18923747814892350 17);
  ([Dec 10000000000000000 16], Dec 33333333333333333 18)].

(** FillPointsAndWeights, order 10, 11: Quadrature_GaussLobatto1D.hpp:103-120. *)
Definition Lobatto1D_11 : rule := Rule true [
  ([Dec 0 16], Dec 23809523809523808 18);
  ([Dec 84888051860716518 18], Dec 13841302368078298 17);
  ([Dec 26557560326464291 17], Dec 21587269060493131 17);
  ([Dec 50000000000000000 17], Dec 24380952380952381 17);
  ([Dec 73442439673535709 17], Dec 21587269060493131 17);
  ([Dec 91511194813928354 17], Dec 13841302368078298 17);
  ([Dec 10000000000000000 16], Dec 23809523809523808 18)].

(** FillPointsAndWeights, order 12, 13: Quadrature_GaussLobatto1D.hpp:123-142. *)
Definition Lobatto1D_13 : rule := Rule true [
  ([Dec 0 16], Dec 17857142857142856 18);
  ([Dec 64129925745196714 18], Dec 10535211357175302 17);
  ([Dec 20414990928342885 17], Dec 17056134624175218 17);
  ([Dec 39535039104876057 17], Dec 20622939732935194 17);
  ([Dec 60464960895123943 17], Dec 20622939732935194 17);
  ([Dec 79585009071657109 17], Dec 17056134624175218 17);
  ([Dec 93587007425480329 17], Dec 10535211357175302 17);
  ([Dec 10000000000000000 16], Dec 17857142857142856 18)].

(** FillPointsAndWeights, order 14, 15: Quadrature_GaussLobatto1D.hpp:145-166. *)
Definition Lobatto1D_15 : rule := Rule true [
  ([Dec 0 16], Dec 13888888888888888 18);
  ([Dec 50121002294269912 18], Dec 82747680780402760 18);
  ([Dec 16140686024463113 17], Dec 13726935625008085 17);
  ([Dec 31844126808691092 17], Dec 17321425548652317 17);
  ([Dec 50000000000000000 17], Dec 18575963718820862 17);
  ([Dec 68155873191308913 17], Dec 17321425548652317 17);
  ([Dec 83859313975536887 17], Dec 13726935625008085 17);
  ([Dec 94987899770573003 17], Dec 82747680780402760 18);
  ([Dec 10000000000000000 16], Dec 13888888888888888 18)].

(** FillPointsAndWeights, order 16, 17: Quadrature_GaussLobatto1D.hpp:169-192. *)
Definition Lobatto1D_17 : rule := Rule false [
  ([Dec 0 16], Dec 11111111111111112 18);
  ([Dec 40233045916770571 18], Dec 66652995425535030 18);
  ([Dec 13061306744724743 17], Dec 11244467103156322 17);
  ([Dec 26103752509477773 17], Dec 14602134183984189 17);
  ([Dec 41736052116680650 17], Dec 16376988059194872 17);
  ([Dec 58263947883319345 17], Dec 16376988059194872 17);
  ([Dec 73896247490522227 17], Dec 14602134183984189 17);
  ([Dec 86938693255275257 17], Dec 11244467103156322 17);
  ([Dec 95976695408322943 17], Dec 66652995425535030 18);
  ([Dec 10000000000000000 16], Dec 11111111111111112 18)].

(** FillPointsAndWeights, order 18, 19: Quadrature_GaussLobatto1D.hpp:194-219. *)
Definition Lobatto1D_19 : rule := Rule false [
  ([Dec 0 16], Dec 90909090909090905 19);
  ([Dec 32999284795970418 18], Dec 54806136633497413 18);
  ([Dec 10775826316842779 17], Dec 93584940890152596 18);
  ([Dec 21738233650189748 17], Dec 12402405213201415 17);
  ([Dec 35212093220653029 17], Dec 14343956238950392 17);
  ([Dec 50000000000000000 17], Dec 15010879772784536 17);
  ([Dec 64787906779346971 17], Dec 14343956238950392 17);
  ([Dec 78261766349810258 17], Dec 12402405213201415 17);
  ([Dec 89224173683157226 17], Dec 93584940890152596 18);
  ([Dec 96700071520402964 17], Dec 54806136633497413 18);
  ([Dec 10000000000000000 16], Dec 90909090909090905 19)].

(** FillPointsAndWeights, order 20, 21: Quadrature_GaussLobatto1D.hpp:221-248. *)
Definition Lobatto1D_21 : rule := Rule false [
  ([Dec 0 16], Dec 75757575757575760 19);
  ([Dec 27550363888558915 18], Dec 45842258706598124 18);
  ([Dec 90360339177996685 18], Dec 78987352782185022 18);
  ([Dec 18356192348406969 17], Dec 10625420888051065 17);
  ([Dec 30023452951732554 17], Dec 12563780159960064 17);
  ([Dec 43172353357253623 17], Dec 13570262045534809 17);
  ([Dec 56827646642746377 17], Dec 13570262045534809 17);
  ([Dec 69976547048267446 17], Dec 12563780159960064 17);
  ([Dec 81643807651593026 17], Dec 10625420888051065 17);
  ([Dec 90963966082200332 17], Dec 78987352782185022 18);
  ([Dec 97244963611144108 17], Dec 45842258706598124 18);
  ([Dec 10000000000000000 16], Dec 75757575757575760 19)].

(** FillPointsAndWeights, order 22, 23: Quadrature_GaussLobatto1D.hpp:250-279. *)
Definition Lobatto1D_23 : rule := Rule false [
  ([Dec 0 16], Dec 64102564102564100 19);
  ([Dec 23345076678918053 18], Dec 38900843373409481 18);
  ([Dec 76826217674063835 18], Dec 67490963344804200 18);
  ([Dec 15690576545912127 17], Dec 91823432601775085 18);
  ([Dec 25854508945433191 17], Dec 11038389678305506 17);
  ([Dec 37535653494688004 17], Dec 12200789515333813 17);
  ([Dec 50000000000000000 17], Dec 12596542466672336 17);
  ([Dec 62464346505311996 17], Dec 12200789515333813 17);
  ([Dec 74145491054566803 17], Dec 11038389678305506 17);
  ([Dec 84309423454087873 17], Dec 91823432601775085 18);
  ([Dec 92317378232593617 17], Dec 67490963344804200 18);
  ([Dec 97665492332108195 17], Dec 38900843373409481 18);
  ([Dec 10000000000000000 16], Dec 64102564102564100 19)].

(** FillPointsAndWeights, order 24, 25: Quadrature_GaussLobatto1D.hpp:281-312. *)
Definition Lobatto1D_25 : rule := Rule false [
  ([Dec 0 16], Dec 54945054945054949 19);
  ([Dec 20032477366369539 18], Dec 33418642248840585 18);
  ([Dec 66099473084826388 18], Dec 58293327949355746 18);
  ([Dec 13556570045433691 17], Dec 80010925881476000 18);
  ([Dec 22468029853567645 17], Dec 97413074686708026 18);
  ([Dec 32863799332864357 17], Dec 10956312650488541 17);
  ([Dec 44183406555814808 17], Dec 11580639723422859 17);
  ([Dec 55816593444185192 17], Dec 11580639723422849 17);
  ([Dec 67136200667135637 17], Dec 10956312650488541 17);
  ([Dec 77531970146432361 17], Dec 97413074686708026 18);
  ([Dec 86443429954566309 17], Dec 80010925881476000 18);
  ([Dec 93390052691517367 17], Dec 58293327949355746 18);
  ([Dec 97996752263363041 17], Dec 33418642248840585 18);
  ([Dec 10000000000000000 16], Dec 54945054945054949 19)].

(** FillPointsAndWeights, order 26, 27: Quadrature_GaussLobatto1D.hpp:314-347. *)
Definition Lobatto1D_27 : rule := Rule false [
  ([Dec 0 16], Dec 47619047619047623 19);
  ([Dec 17377036748080721 18], Dec 29014946514300668 18);
  ([Dec 57458977888511842 18], Dec 50830035162859062 18);
  ([Dec 11824015502409241 17], Dec 70255849901214015 18);
  ([Dec 19687339726507713 17], Dec 86394823626800440 18);
  ([Dec 28968097264316373 17], Dec 98493617982306686 18);
  ([Dec 39232302231810290 17], Dec 10598679296341047 17);
  ([Dec 50000000000000000 17], Dec 10852405817440783 17);
  ([Dec 60767697768189710 17], Dec 10598679296341047 17);
  ([Dec 71031902735683627 17], Dec 98493617982306686 18);
  ([Dec 80312660273492287 17], Dec 86394823626800440 18);
  ([Dec 88175984497590765 17], Dec 70255849901214015 18);
  ([Dec 94254102211148816 17], Dec 50830035162859062 18);
  ([Dec 98262296325191922 17], Dec 29014946514300668 18);
  ([Dec 10000000000000000 16], Dec 47619047619047623 19)].

(** FillPointsAndWeights, order 28, 29: Quadrature_GaussLobatto1D.hpp:349-384. *)
Definition Lobatto1D_29 : rule := Rule false [
  ([Dec 0 16], Dec 41666666666666666 19);
  ([Dec 15215976864891012 18], Dec 25425180502960013 18);
  ([Dec 50399733453263984 18], Dec 44696848662965347 18);
  ([Dec 10399585406909245 17], Dec 62127691066257026 18);
  ([Dec 17380564855875347 17], Dec 77013490403582130 18);
  ([Dec 25697028905643116 17], Dec 88745956695852057 18);
  ([Dec 35008476554961843 17], Dec 96845011912601808 18);
  ([Dec 44933686323902527 17], Dec 10097915408911501 17);
  ([Dec 55066313676097467 17], Dec 10097915408911501 17);
  ([Dec 64991523445038157 17], Dec 96845011912601808 18);
  ([Dec 74302971094356884 17], Dec 88745956695852057 18);
  ([Dec 82619435144124653 17], Dec 77013490403582130 18);
  ([Dec 89600414593090760 17], Dec 62127691066257026 18);
  ([Dec 94960026654673602 17], Dec 44696848662965347 18);
  ([Dec 98478402313510904 17], Dec 25425180502960013 18);
  ([Dec 10000000000000000 16], Dec 41666666666666666 19)].

(** FillPointsAndWeights, order 30, 31: Quadrature_GaussLobatto1D.hpp:386-423. *)
Definition Lobatto1D_31 : rule := Rule false [
  ([Dec 0 16], Dec 36764705882352941 19);
  ([Dec 13433911684290811 18], Dec 22460970271627068 18);
  ([Dec 44560002042213220 18], Dec 39599135251843547 18);
  ([Dec 92151874389114874 18], Dec 55296454503514073 18);
  ([Dec 15448550968615765 17], Dec 68993873100963291 18);
  ([Dec 22930730033494923 17], Dec 80197330998810740 18);
  ([Dec 31391278321726146 17], Dec 88502126757828856 18);
  ([Dec 40524401324084131 17], Dec 93608169838809638 18);
  ([Dec 50000000000000000 17], Dec 95330937376734717 18);
  ([Dec 59475598675915875 17], Dec 93608169838809638 18);
  ([Dec 68608721678273854 17], Dec 88502126757828856 18);
  ([Dec 77069269966505072 17], Dec 80197330998810740 18);
  ([Dec 84551449031384229 17], Dec 68993873100963291 18);
  ([Dec 90784812561088513 17], Dec 55296454503514073 18);
  ([Dec 95543999795778678 17], Dec 39599135251843547 18);
  ([Dec 98656608831570924 17], Dec 22460970271627068 18);
  ([Dec 10000000000000000 16], Dec 36764705882352941 19)].

(** FillPointsAndWeights, order 32, 33: Quadrature_GaussLobatto1D.hpp:425-464. *)
Definition Lobatto1D_33 : rule := Rule false [
  ([Dec 0 16], Dec 32679738562091504 19);
  ([Dec 11947221293900745 18], Dec 19985314405456974 18);
  ([Dec 39675407326233036 18], Dec 35318583442816825 18);
  ([Dec 82203232390954895 18], Dec 49508135858751391 18);
  ([Dec 13816033535837868 17], Dec 62105266566483540 18);
  ([Dec 20574758284066913 17], Dec 72705980786901159 18);
  ([Dec 28279248154393799 17], Dec 80969758618801208 18);
  ([Dec 36681867356085951 17], Dec 86631054744728181 18);
  ([Dec 45512545325767395 17], Dec 89507931719851538 18);
  ([Dec 54487454674232605 17], Dec 89507931719851538 18);
  ([Dec 63318132643914049 17], Dec 86631054744728181 18);
  ([Dec 71720751845606201 17], Dec 80969758618801208 18);
  ([Dec 79425241715933081 17], Dec 72705980786901159 18);
  ([Dec 86183966464162132 17], Dec 62105266566483540 18);
  ([Dec 91779676760904505 17], Dec 49508135858751391 18);
  ([Dec 96032459267376691 17], Dec 35318583442816825 18);
  ([Dec 98805277870609931 17], Dec 19985314405456974 18);
  ([Dec 10000000000000000 16], Dec 32679738562091504 19)].

(** FillPointsAndWeights, order 34, 35: Quadrature_GaussLobatto1D.hpp:466-507. *)
Definition Lobatto1D_35 : rule := Rule false [
  ([Dec 0 16], Dec 29239766081871343 19);
  ([Dec 10694116888959992 18], Dec 17896682593088322 18);
  ([Dec 35549235923706846 18], Dec 31690945881314866 18);
  ([Dec 73769711101676960 18], Dec 44565878549603526 18);
  ([Dec 12425289872369349 17], Dec 56157670738652458 18);
  ([Dec 18554593136738973 17], Dec 66133640224375345 18);
  ([Dec 25588535715964322 17], Dec 74206971297969423 18);
  ([Dec 33324757608775069 17], Dec 80145462022030600 18);
  ([Dec 41540698829535921 17], Dec 83778292263571391 18);
  ([Dec 50000000000000000 17], Dec 85000959642413623 18);
  ([Dec 58459301170464073 17], Dec 83778292263571391 18);
  ([Dec 66675242391224931 17], Dec 80145462022030600 18);
  ([Dec 74411464284035678 17], Dec 74206971297969423 18);
  ([Dec 81445406863261027 17], Dec 66133640224375345 18);
  ([Dec 87574710127630651 17], Dec 56157670738652458 18);
  ([Dec 92623028889832304 17], Dec 44565878549603526 18);
  ([Dec 96445076407629315 17], Dec 31690945881314866 18);
  ([Dec 98930588311103995 17], Dec 17896682593088322 18);
  ([Dec 10000000000000000 16], Dec 29239766081871343 19)].

(** FillPointsAndWeights, order 36, 37: Quadrature_GaussLobatto1D.hpp:509-552. *)
Definition Lobatto1D_37 : rule := Rule false [
  ([Dec 0 16], Dec 26315789473684210 19);
  ([Dec 96281475530429206 19], Dec 16118561594244466 18);
  ([Dec 32032750593667281 18], Dec 28590901063783401 18);
  ([Dec 66561010955024924 18], Dec 40315881998059834 18);
  ([Dec 11231586952397205 17], Dec 50995749849725339 18);
  ([Dec 16811179885484434 17], Dec 60354613814337328 18);
  ([Dec 23250356798405686 17], Dec 68150241179362109 18);
  ([Dec 30382340814304531 17], Dec 74180777035458417 18);
  ([Dec 38022414703850677 17], Dec 78290051323737717 18);
  ([Dec 45972703138058907 17], Dec 80371643193922884 18);
  ([Dec 54027296861941088 17], Dec 80371643193922884 18);
  ([Dec 61977585296149329 17], Dec 78290051323737717 18);
  ([Dec 69617659185695469 17], Dec 74180777035458417 18);
  ([Dec 76749643201594320 17], Dec 68150241179362109 18);
  ([Dec 83188820114515560 17], Dec 60354613814337328 18);
  ([Dec 88768413047602790 17], Dec 50995749849725339 18);
  ([Dec 93343898904497502 17], Dec 40315881998059834 18);
  ([Dec 96796724940633272 17], Dec 28590901063783401 18);
  ([Dec 99037185244695713 17], Dec 16118561594244466 18);
  ([Dec 10000000000000000 16], Dec 26315789473684210 19)].

(** FillPointsAndWeights, order 38, 39: Quadrature_GaussLobatto1D.hpp:554-599. *)
Definition Lobatto1D_39 : rule := Rule false [
  ([Dec 0 16], Dec 23809523809523812 19);
  ([Dec 87138516977259828 19], Dec 14592420049252782 18);
  ([Dec 29011851520127252 18], Dec 25921584500424821 18);
  ([Dec 60352622338204764 18], Dec 36636959092537086 18);
  ([Dec 10199903696114382 17], Dec 46492733978942997 18);
  ([Dec 15297448696888838 17], Dec 55258541609561632 18);
  ([Dec 21208401986908465 17], Dec 62729060595434455 18);
  ([Dec 27794210836049893 17], Dec 68729231430020646 18);
  ([Dec 34900507174561757 17], Dec 73118431223988686 18);
  ([Dec 42360724209890727 17], Dec 75793787555840680 18);
  ([Dec 50000000000000000 17], Dec 76692595166087479 18);
  ([Dec 57639275790109279 17], Dec 75793787555840680 18);
  ([Dec 65099492825438243 17], Dec 73118431223988686 18);
  ([Dec 72205789163950107 17], Dec 68729231430020646 18);
  ([Dec 78791598013091535 17], Dec 62729060595434455 18);
  ([Dec 84702551303111162 17], Dec 55258541609561632 18);
  ([Dec 89800096303885613 17], Dec 46492733978942997 18);
  ([Dec 93964737766179529 17], Dec 36636959092537086 18);
  ([Dec 97098814847987280 17], Dec 25921584500424821 18);
  ([Dec 99128614830227402 17], Dec 14592420049252782 18);
  ([Dec 10000000000000000 16], Dec 23809523809523812 19)].

(** FillPointsAndWeights, order 40, 41: Quadrature_GaussLobatto1D.hpp:601-648. *)
Definition Lobatto1D_41 : rule := Rule false [
  ([Dec 0 16], Dec 21645021645021645 19);
  ([Dec 79237807711768915 19], Dec 13272873841250830 18);
  ([Dec 26397858000385688 18], Dec 23607232646870410 18);
  ([Dec 54968854904547726 18], Dec 33432802932276483 18);
  ([Dec 93025536194039415 18], Dec 42545030195919264 18);
  ([Dec 13975638001939894 17], Dec 50750287400823844 18);
  ([Dec 19416528085787049 17], Dec 57873822326969582 18);
  ([Dec 25509256240504885 17], Dec 63763848326715153 18);
  ([Dec 32123964493054025 17], Dec 68294844306870731 18);
  ([Dec 39119670742035750 17], Dec 71370246135680757 18);
  ([Dec 46347272999455080 17], Dec 72924509722120862 18);
  ([Dec 53652727000544920 17], Dec 72924509722120862 18);
  ([Dec 60880329257964250 17], Dec 71370246135680757 18);
  ([Dec 67876035506945975 17], Dec 68294844306870731 18);
  ([Dec 74490743759495115 17], Dec 63763848326715153 18);
  ([Dec 80583471914212956 17], Dec 57873822326969582 18);
  ([Dec 86024361998060106 17], Dec 50750287400823844 18);
  ([Dec 90697446380596058 17], Dec 42545030195919264 18);
  ([Dec 94503114509545227 17], Dec 33432802932276483 18);
  ([Dec 97360214199961437 17], Dec 23607232646870410 18);
  ([Dec 99207621922882305 17], Dec 13272873841250830 18);
  ([Dec 10000000000000000 16], Dec 21645021645021645 19)].

(** FillPointsAndWeights, order 42, 43: Quadrature_GaussLobatto1D.hpp:650-699. *)
Definition Lobatto1D_43 : rule := Rule false [
  ([Dec 0 16], Dec 19762845849802370 19);
  ([Dec 72364220606337404 19], Dec 12124300385765858 18);
  ([Dec 24121022144644899 18], Dec 21587935585120871 18);
  ([Dec 50270720979827488 18], Dec 30626238564777111 18);
  ([Dec 85174451674357055 18], Dec 39067724737784998 18);
  ([Dec 12815247941396968 17], Dec 46748623081756188 18);
  ([Dec 17836817776993191 17], Dec 53519550862168308 18);
  ([Dec 23484411443157793 17], Dec 59248755331374525 18);
  ([Dec 29648103104276258 17], Dec 63824737350879387 18);
  ([Dec 36207922552710348 17], Dec 67158436319301920 18);
  ([Dec 43036189797966579 17], Dec 69184968192903706 18);
  ([Dec 50000000000000000 17], Dec 69864890006373678 18);
  ([Dec 56963810202033416 17], Dec 69184968192903706 18);
  ([Dec 63792077447289652 17], Dec 67158436319301920 18);
  ([Dec 70351896895723742 17], Dec 63824737350879387 18);
  ([Dec 76515588556842207 17], Dec 59248755331374525 18);
  ([Dec 82163182223006803 17], Dec 53519550862168308 18);
  ([Dec 87184752058603032 17], Dec 46748623081756188 18);
  ([Dec 91482554832564289 17], Dec 39067724737784998 18);
  ([Dec 94972927902017257 17], Dec 30626238564777111 18);
  ([Dec 97587897785535516 17], Dec 21587935585120871 18);
  ([Dec 99276357793936620 17], Dec 12124300385765858 18);
  ([Dec 10000000000000000 16], Dec 19762845849802370 19)].

(** The switch of FillPointsAndWeights; other orders throw. *)
Definition Lobatto1D_Fill (order : nat) : outcome rule :=
  match order with
  | 0%nat | 1%nat => Ok Lobatto1D_1
  | 2%nat | 3%nat => Ok Lobatto1D_3
  | 4%nat | 5%nat => Ok Lobatto1D_5
  | 6%nat | 7%nat => Ok Lobatto1D_7
  | 8%nat | 9%nat => Ok Lobatto1D_9
  | 10%nat | 11%nat => Ok Lobatto1D_11
  | 12%nat | 13%nat => Ok Lobatto1D_13
  | 14%nat | 15%nat => Ok Lobatto1D_15
  | 16%nat | 17%nat => Ok Lobatto1D_17
  | 18%nat | 19%nat => Ok Lobatto1D_19
  | 20%nat | 21%nat => Ok Lobatto1D_21
  | 22%nat | 23%nat => Ok Lobatto1D_23
  | 24%nat | 25%nat => Ok Lobatto1D_25
  | 26%nat | 27%nat => Ok Lobatto1D_27
  | 28%nat | 29%nat => Ok Lobatto1D_29
  | 30%nat | 31%nat => Ok Lobatto1D_31
  | 32%nat | 33%nat => Ok Lobatto1D_33
  | 34%nat | 35%nat => Ok Lobatto1D_35
  | 36%nat | 37%nat => Ok Lobatto1D_37
  | 38%nat | 39%nat => Ok Lobatto1D_39
  | 40%nat | 41%nat => Ok Lobatto1D_41
  | 42%nat | 43%nat => Ok Lobatto1D_43
  | _ => Throw
  end.
