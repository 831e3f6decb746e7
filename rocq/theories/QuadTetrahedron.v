(** * The tables of GeDiM/src/Quadrature/Quadrature_Gauss3D_Tetrahedron.cpp *)
From Verif Require Import Base QuadModel.
Local Open Scope Z_scope.

(** FillPointsAndWeights, order 0: Quadrature_Gauss3D_Tetrahedron.cpp:26-32. *)
Definition Tetrahedron_0 : rule := Rule false [
  ([Dec 25000000000000000 17; Dec 25000000000000000 17; Dec 25000000000000000 17], Dec 16666666666666666 17)].

(** FillPointsAndWeights, order 1: Quadrature_Gauss3D_Tetrahedron.cpp:35-41. *)
Definition Tetrahedron_1 : rule := Rule false [
  ([Dec 25000000000000000 17; Dec 25000000000000000 17; Dec 25000000000000000 17], Dec 16666666666666666 17)].

(** FillPointsAndWeights, order 2: Quadrature_Gauss3D_Tetrahedron.cpp:44-62. *)
Definition Tetrahedron_2 : rule := Rule false [
  ([Dec 58541019662496896 17; Dec 13819660112501100 17; Dec 13819660112501100 17], Dec 41666666666666664 18);
  ([Dec 13819660112501100 17; Dec 58541019662496896 17; Dec 13819660112501100 17], Dec 41666666666666664 18);
  ([Dec 13819660112501100 17; Dec 13819660112501100 17; Dec 58541019662496896 17], Dec 41666666666666664 18);
  ([Dec 13819660112501100 17; Dec 13819660112501100 17; Dec 13819660112501100 17], Dec 41666666666666664 18)].

(** FillPointsAndWeights, order 3: Quadrature_Gauss3D_Tetrahedron.cpp:65-87. *)
Definition Tetrahedron_3 : rule := Rule false [
  ([Dec 25000000000000000 17; Dec 25000000000000000 17; Dec 25000000000000000 17], Dec (-13333333333333319) 17);
  ([Dec 50000000000000000 17; Dec 16666666666666666 17; Dec 16666666666666666 17], Dec 74999999999999997 18);
  ([Dec 16666666666666666 17; Dec 50000000000000000 17; Dec 16666666666666666 17], Dec 74999999999999997 18);
  ([Dec 16666666666666666 17; Dec 16666666666666666 17; Dec 50000000000000000 17], Dec 74999999999999997 18);
  ([Dec 16666666666666666 17; Dec 16666666666666666 17; Dec 16666666666666666 17], Dec 74999999999999997 18)].

(** FillPointsAndWeights, order 4: Quadrature_Gauss3D_Tetrahedron.cpp:90-136. *)
Definition Tetrahedron_4 : rule := Rule false [
  ([Dec 25000000000000000 17; Dec 25000000000000000 17; Dec 25000000000000000 17], Dec (-13155555555555556) 18);
  ([Dec 78571428571428570 17; Dec 71428571428571425 18; Dec 71428571428571425 18], Dec 76222222222222221 19);
  ([Dec 71428571428571425 18; Dec 78571428571428570 17; Dec 71428571428571425 18], Dec 76222222222222221 19);
  ([Dec 71428571428571425 18; Dec 71428571428571425 18; Dec 78571428571428570 17], Dec 76222222222222221 19);
  ([Dec 71428571428571425 18; Dec 71428571428571425 18; Dec 71428571428571425 18], Dec 76222222222222221 19);
  ([Dec 39940357616679922 17; Dec 39940357616679922 17; Dec 10059642383320079 17], Dec 24888888888888887 18);
  ([Dec 39940357616679922 17; Dec 10059642383320079 17; Dec 10059642383320079 17], Dec 24888888888888887 18);
  ([Dec 10059642383320079 17; Dec 10059642383320079 17; Dec 39940357616679922 17], Dec 24888888888888887 18);
  ([Dec 10059642383320079 17; Dec 39940357616679922 17; Dec 10059642383320079 17], Dec 24888888888888887 18);
  ([Dec 10059642383320079 17; Dec 39940357616679922 17; Dec 39940357616679922 17], Dec 24888888888888887 18);
  ([Dec 39940357616679922 17; Dec 10059642383320079 17; Dec 39940357616679922 17], Dec 24888888888888887 18)].

(** FillPointsAndWeights, order 5: Quadrature_Gauss3D_Tetrahedron.cpp:139-197. *)
Definition Tetrahedron_5 : rule := Rule false [
  ([Dec 31088591926330061 17; Dec 31088591926330061 17; Dec 31088591926330061 17], Dec 18781320953002643 18);
  ([Dec 31088591926330061 17; Dec 67342242210098213 18; Dec 31088591926330061 17], Dec 18781320953002643 18);
  ([Dec 67342242210098213 18; Dec 31088591926330061 17; Dec 31088591926330061 17], Dec 18781320953002643 18);
  ([Dec 31088591926330061 17; Dec 31088591926330061 17; Dec 67342242210098213 18], Dec 18781320953002643 18);
  ([Dec 92735250310891221 18; Dec 92735250310891221 18; Dec 92735250310891221 18], Dec 12248840519393659 18);
  ([Dec 92735250310891221 18; Dec 72179424906732637 17; Dec 92735250310891221 18], Dec 12248840519393659 18);
  ([Dec 72179424906732637 17; Dec 92735250310891221 18; Dec 92735250310891221 18], Dec 12248840519393659 18);
  ([Dec 92735250310891221 18; Dec 92735250310891221 18; Dec 72179424906732637 17], Dec 12248840519393659 18);
  ([Dec 45449629587435036 17; Dec 45449629587435036 17; Dec 45503704125649649 18], Dec 70910034628469112 19);
  ([Dec 45449629587435036 17; Dec 45503704125649649 18; Dec 45503704125649649 18], Dec 70910034628469112 19);
  ([Dec 45503704125649649 18; Dec 45503704125649649 18; Dec 45449629587435036 17], Dec 70910034628469112 19);
  ([Dec 45503704125649649 18; Dec 45449629587435036 17; Dec 45503704125649649 18], Dec 70910034628469112 19);
  ([Dec 45449629587435036 17; Dec 45503704125649649 18; Dec 45449629587435036 17], Dec 70910034628469112 19);
  ([Dec 45503704125649649 18; Dec 45449629587435036 17; Dec 45449629587435036 17], Dec 70910034628469112 19)].

(** FillPointsAndWeights, order 6: Quadrature_Gauss3D_Tetrahedron.cpp:200-298. *)
Definition Tetrahedron_6 : rule := Rule false [
  ([Dec 35619138622254493 17; Dec 21460287125915167 17; Dec 21460287125915167 17], Dec 66537917096946451 19);
  ([Dec 21460287125915167 17; Dec 35619138622254493 17; Dec 21460287125915167 17], Dec 66537917096946451 19);
  ([Dec 21460287125915167 17; Dec 21460287125915167 17; Dec 35619138622254493 17], Dec 66537917096946451 19);
  ([Dec 21460287125915167 17; Dec 21460287125915167 17; Dec 21460287125915167 17], Dec 66537917096946451 19);
  ([Dec 87797812439616596 17; Dec 40673958534611337 18; Dec 40673958534611337 18], Dec 16795351758867763 19);
  ([Dec 40673958534611337 18; Dec 87797812439616596 17; Dec 40673958534611337 18], Dec 16795351758867763 19);
  ([Dec 40673958534611337 18; Dec 40673958534611337 18; Dec 87797812439616596 17], Dec 16795351758867763 19);
  ([Dec 40673958534611337 18; Dec 40673958534611337 18; Dec 40673958534611337 18], Dec 16795351758867763 19);
  ([Dec 32986329573173059 18; Dec 32233789014227565 17; Dec 32233789014227565 17], Dec 92261969239423990 19);
  ([Dec 32233789014227565 17; Dec 32986329573173059 18; Dec 32233789014227565 17], Dec 92261969239423990 19);
  ([Dec 32233789014227565 17; Dec 32233789014227565 17; Dec 32986329573173059 18], Dec 92261969239423990 19);
  ([Dec 32233789014227565 17; Dec 32233789014227565 17; Dec 32233789014227565 17], Dec 92261969239423990 19);
  ([Dec 63661001875017525 18; Dec 63661001875017525 18; Dec 26967233145831587 17], Dec 80357142857142832 19);
  ([Dec 63661001875017525 18; Dec 63661001875017525 18; Dec 60300566479164908 17], Dec 80357142857142832 19);
  ([Dec 26967233145831587 17; Dec 63661001875017525 18; Dec 63661001875017525 18], Dec 80357142857142832 19);
  ([Dec 60300566479164908 17; Dec 63661001875017525 18; Dec 63661001875017525 18], Dec 80357142857142832 19);
  ([Dec 63661001875017525 18; Dec 26967233145831587 17; Dec 63661001875017525 18], Dec 80357142857142832 19);
  ([Dec 63661001875017525 18; Dec 60300566479164908 17; Dec 63661001875017525 18], Dec 80357142857142832 19);
  ([Dec 63661001875017525 18; Dec 26967233145831587 17; Dec 60300566479164908 17], Dec 80357142857142832 19);
  ([Dec 63661001875017525 18; Dec 60300566479164908 17; Dec 26967233145831587 17], Dec 80357142857142832 19);
  ([Dec 26967233145831587 17; Dec 63661001875017525 18; Dec 60300566479164908 17], Dec 80357142857142832 19);
  ([Dec 26967233145831587 17; Dec 60300566479164908 17; Dec 63661001875017525 18], Dec 80357142857142832 19);
  ([Dec 60300566479164908 17; Dec 63661001875017525 18; Dec 26967233145831587 17], Dec 80357142857142832 19);
  ([Dec 60300566479164908 17; Dec 26967233145831587 17; Dec 63661001875017525 18], Dec 80357142857142832 19)].

(** FillPointsAndWeights, order 7: Quadrature_Gauss3D_Tetrahedron.cpp:301-483. *)
Definition Tetrahedron_7 : rule := Rule false [
  ([Dec 25000000000000000 17; Dec 25000000000000000 17; Dec 25000000000000000 17], Dec (-39327006641292614) 18);
  ([Dec 61758719030008302 17; Dec 12747093656663902 17; Dec 12747093656663902 17], Dec 40813160593427050 19);
  ([Dec 12747093656663902 17; Dec 61758719030008302 17; Dec 12747093656663902 17], Dec 40813160593427050 19);
  ([Dec 12747093656663902 17; Dec 12747093656663902 17; Dec 61758719030008302 17], Dec 40813160593427050 19);
  ([Dec 12747093656663902 17; Dec 12747093656663902 17; Dec 12747093656663902 17], Dec 40813160593427050 19);
  ([Dec 90376350882210310 17; Dec 32078830392632297 18; Dec 32078830392632297 18], Dec 65808677330434189 20);
  ([Dec 32078830392632297 18; Dec 90376350882210310 17; Dec 32078830392632297 18], Dec 65808677330434189 20);
  ([Dec 32078830392632297 18; Dec 32078830392632297 18; Dec 90376350882210310 17], Dec 65808677330434189 20);
  ([Dec 32078830392632297 18; Dec 32078830392632297 18; Dec 32078830392632297 18], Dec 65808677330434189 20);
  ([Dec 49777095643281019 18; Dec 49777095643281019 18; Dec 45022290435671897 17], Dec 43842588251228470 19);
  ([Dec 49777095643281019 18; Dec 45022290435671897 17; Dec 45022290435671897 17], Dec 43842588251228470 19);
  ([Dec 45022290435671897 17; Dec 45022290435671897 17; Dec 49777095643281019 18], Dec 43842588251228470 19);
  ([Dec 45022290435671897 17; Dec 49777095643281019 18; Dec 45022290435671897 17], Dec 43842588251228470 19);
  ([Dec 45022290435671897 17; Dec 49777095643281019 18; Dec 49777095643281019 18], Dec 43842588251228470 19);
  ([Dec 49777095643281019 18; Dec 45022290435671897 17; Dec 49777095643281019 18], Dec 43842588251228470 19);
  ([Dec 18373044739854993 17; Dec 18373044739854993 17; Dec 31626955260145007 17], Dec 13830063842509817 18);
  ([Dec 18373044739854993 17; Dec 31626955260145007 17; Dec 31626955260145007 17], Dec 13830063842509817 18);
  ([Dec 31626955260145007 17; Dec 31626955260145007 17; Dec 18373044739854993 17], Dec 13830063842509817 18);
  ([Dec 31626955260145007 17; Dec 18373044739854993 17; Dec 31626955260145007 17], Dec 13830063842509817 18);
  ([Dec 31626955260145007 17; Dec 18373044739854993 17; Dec 18373044739854993 17], Dec 13830063842509817 18);
  ([Dec 18373044739854993 17; Dec 31626955260145007 17; Dec 18373044739854993 17], Dec 13830063842509817 18);
  ([Dec 23190108939715090 17; Dec 23190108939715090 17; Dec 22917787844817118 18], Dec 42404374246837245 19);
  ([Dec 23190108939715090 17; Dec 23190108939715090 17; Dec 51328003336088113 17], Dec 42404374246837245 19);
  ([Dec 22917787844817118 18; Dec 23190108939715090 17; Dec 23190108939715090 17], Dec 42404374246837245 19);
  ([Dec 51328003336088113 17; Dec 23190108939715090 17; Dec 23190108939715090 17], Dec 42404374246837245 19);
  ([Dec 23190108939715090 17; Dec 22917787844817118 18; Dec 23190108939715090 17], Dec 42404374246837245 19);
  ([Dec 23190108939715090 17; Dec 51328003336088113 17; Dec 23190108939715090 17], Dec 42404374246837245 19);
  ([Dec 23190108939715090 17; Dec 22917787844817118 18; Dec 51328003336088113 17], Dec 42404374246837245 19);
  ([Dec 23190108939715090 17; Dec 51328003336088113 17; Dec 22917787844817118 18], Dec 42404374246837245 19);
  ([Dec 22917787844817118 18; Dec 23190108939715090 17; Dec 51328003336088113 17], Dec 42404374246837245 19);
  ([Dec 22917787844817118 18; Dec 51328003336088113 17; Dec 23190108939715090 17], Dec 42404374246837245 19);
  ([Dec 51328003336088113 17; Dec 23190108939715090 17; Dec 22917787844817118 18], Dec 42404374246837245 19);
  ([Dec 51328003336088113 17; Dec 22917787844817118 18; Dec 23190108939715090 17], Dec 42404374246837245 19);
  ([Dec 37970048471828610 18; Dec 37970048471828610 18; Dec 73031342780753838 17], Dec 22387397396142015 19);
  ([Dec 37970048471828610 18; Dec 37970048471828610 18; Dec 19374647524880440 17], Dec 22387397396142015 19);
  ([Dec 73031342780753838 17; Dec 37970048471828610 18; Dec 37970048471828610 18], Dec 22387397396142015 19);
  ([Dec 19374647524880440 17; Dec 37970048471828610 18; Dec 37970048471828610 18], Dec 22387397396142015 19);
  ([Dec 37970048471828610 18; Dec 73031342780753838 17; Dec 37970048471828610 18], Dec 22387397396142015 19);
  ([Dec 37970048471828610 18; Dec 19374647524880440 17; Dec 37970048471828610 18], Dec 22387397396142015 19);
  ([Dec 37970048471828610 18; Dec 73031342780753838 17; Dec 19374647524880440 17], Dec 22387397396142015 19);
  ([Dec 37970048471828610 18; Dec 19374647524880440 17; Dec 73031342780753838 17], Dec 22387397396142015 19);
  ([Dec 73031342780753838 17; Dec 37970048471828610 18; Dec 19374647524880440 17], Dec 22387397396142015 19);
  ([Dec 73031342780753838 17; Dec 19374647524880440 17; Dec 37970048471828610 18], Dec 22387397396142015 19);
  ([Dec 19374647524880440 17; Dec 37970048471828610 18; Dec 73031342780753838 17], Dec 22387397396142015 19);
  ([Dec 19374647524880440 17; Dec 73031342780753838 17; Dec 37970048471828610 18], Dec 22387397396142015 19)].

(** FillPointsAndWeights, order 8: Quadrature_Gauss3D_Tetrahedron.cpp:486-668. *)
Definition Tetrahedron_8 : rule := Rule false [
  ([Dec 25000000000000000 17; Dec 25000000000000000 17; Dec 25000000000000000 17], Dec (-39327006641292614) 18);
  ([Dec 61758719030008302 17; Dec 12747093656663902 17; Dec 12747093656663902 17], Dec 40813160593427050 19);
  ([Dec 12747093656663902 17; Dec 61758719030008302 17; Dec 12747093656663902 17], Dec 40813160593427050 19);
  ([Dec 12747093656663902 17; Dec 12747093656663902 17; Dec 61758719030008302 17], Dec 40813160593427050 19);
  ([Dec 12747093656663902 17; Dec 12747093656663902 17; Dec 12747093656663902 17], Dec 40813160593427050 19);
  ([Dec 90376350882210310 17; Dec 32078830392632297 18; Dec 32078830392632297 18], Dec 65808677330434189 20);
  ([Dec 32078830392632297 18; Dec 90376350882210310 17; Dec 32078830392632297 18], Dec 65808677330434189 20);
  ([Dec 32078830392632297 18; Dec 32078830392632297 18; Dec 90376350882210310 17], Dec 65808677330434189 20);
  ([Dec 32078830392632297 18; Dec 32078830392632297 18; Dec 32078830392632297 18], Dec 65808677330434189 20);
  ([Dec 49777095643281019 18; Dec 49777095643281019 18; Dec 45022290435671897 17], Dec 43842588251228470 19);
  ([Dec 49777095643281019 18; Dec 45022290435671897 17; Dec 45022290435671897 17], Dec 43842588251228470 19);
  ([Dec 45022290435671897 17; Dec 45022290435671897 17; Dec 49777095643281019 18], Dec 43842588251228470 19);
  ([Dec 45022290435671897 17; Dec 49777095643281019 18; Dec 45022290435671897 17], Dec 43842588251228470 19);
  ([Dec 45022290435671897 17; Dec 49777095643281019 18; Dec 49777095643281019 18], Dec 43842588251228470 19);
  ([Dec 49777095643281019 18; Dec 45022290435671897 17; Dec 49777095643281019 18], Dec 43842588251228470 19);
  ([Dec 18373044739854993 17; Dec 18373044739854993 17; Dec 31626955260145007 17], Dec 13830063842509817 18);
  ([Dec 18373044739854993 17; Dec 31626955260145007 17; Dec 31626955260145007 17], Dec 13830063842509817 18);
  ([Dec 31626955260145007 17; Dec 31626955260145007 17; Dec 18373044739854993 17], Dec 13830063842509817 18);
  ([Dec 31626955260145007 17; Dec 18373044739854993 17; Dec 31626955260145007 17], Dec 13830063842509817 18);
  ([Dec 31626955260145007 17; Dec 18373044739854993 17; Dec 18373044739854993 17], Dec 13830063842509817 18);
  ([Dec 18373044739854993 17; Dec 31626955260145007 17; Dec 18373044739854993 17], Dec 13830063842509817 18);
  ([Dec 23190108939715090 17; Dec 23190108939715090 17; Dec 22917787844817118 18], Dec 42404374246837245 19);
  ([Dec 23190108939715090 17; Dec 23190108939715090 17; Dec 51328003336088113 17], Dec 42404374246837245 19);
  ([Dec 22917787844817118 18; Dec 23190108939715090 17; Dec 23190108939715090 17], Dec 42404374246837245 19);
  ([Dec 51328003336088113 17; Dec 23190108939715090 17; Dec 23190108939715090 17], Dec 42404374246837245 19);
  ([Dec 23190108939715090 17; Dec 22917787844817118 18; Dec 23190108939715090 17], Dec 42404374246837245 19);
  ([Dec 23190108939715090 17; Dec 51328003336088113 17; Dec 23190108939715090 17], Dec 42404374246837245 19);
  ([Dec 23190108939715090 17; Dec 22917787844817118 18; Dec 51328003336088113 17], Dec 42404374246837245 19);
  ([Dec 23190108939715090 17; Dec 51328003336088113 17; Dec 22917787844817118 18], Dec 42404374246837245 19);
  ([Dec 22917787844817118 18; Dec 23190108939715090 17; Dec 51328003336088113 17], Dec 42404374246837245 19);
  ([Dec 22917787844817118 18; Dec 51328003336088113 17; Dec 23190108939715090 17], Dec 42404374246837245 19);
  ([Dec 51328003336088113 17; Dec 23190108939715090 17; Dec 22917787844817118 18], Dec 42404374246837245 19);
  ([Dec 51328003336088113 17; Dec 22917787844817118 18; Dec 23190108939715090 17], Dec 42404374246837245 19);
  ([Dec 37970048471828610 18; Dec 37970048471828610 18; Dec 73031342780753838 17], Dec 22387397396142015 19);
  ([Dec 37970048471828610 18; Dec 37970048471828610 18; Dec 19374647524880440 17], Dec 22387397396142015 19);
  ([Dec 73031342780753838 17; Dec 37970048471828610 18; Dec 37970048471828610 18], Dec 22387397396142015 19);
  ([Dec 19374647524880440 17; Dec 37970048471828610 18; Dec 37970048471828610 18], Dec 22387397396142015 19);
  ([Dec 37970048471828610 18; Dec 73031342780753838 17; Dec 37970048471828610 18], Dec 22387397396142015 19);
  ([Dec 37970048471828610 18; Dec 19374647524880440 17; Dec 37970048471828610 18], Dec 22387397396142015 19);
  ([Dec 37970048471828610 18; Dec 73031342780753838 17; Dec 19374647524880440 17], Dec 22387397396142015 19);
  ([Dec 37970048471828610 18; Dec 19374647524880440 17; Dec 73031342780753838 17], Dec 22387397396142015 19);
  ([Dec 73031342780753838 17; Dec 37970048471828610 18; Dec 19374647524880440 17], Dec 22387397396142015 19);
  ([Dec 73031342780753838 17; Dec 19374647524880440 17; Dec 37970048471828610 18], Dec 22387397396142015 19);
  ([Dec 19374647524880440 17; Dec 37970048471828610 18; Dec 73031342780753838 17], Dec 22387397396142015 19);
  ([Dec 19374647524880440 17; Dec 73031342780753838 17; Dec 37970048471828610 18], Dec 22387397396142015 19)].

(** FillPointsAndWeights, order 9: Quadrature_Gauss3D_Tetrahedron.cpp:671-953. *)
Definition Tetrahedron_9 : rule := Rule false [
  ([Dec 75000000000000000 17; Dec 83333333333333329 18; Dec 83333333333333329 18], Dec 42077922077922075 18);
  ([Dec 58333333333333337 17; Dec 25000000000000000 17; Dec 83333333333333329 18], Dec 42077922077922075 18);
  ([Dec 41666666666666669 17; Dec 41666666666666669 17; Dec 83333333333333329 18], Dec 42077922077922075 18);
  ([Dec 25000000000000000 17; Dec 58333333333333337 17; Dec 83333333333333329 18], Dec 42077922077922075 18);
  ([Dec 83333333333333329 18; Dec 75000000000000000 17; Dec 83333333333333329 18], Dec 42077922077922075 18);
  ([Dec 58333333333333337 17; Dec 83333333333333329 18; Dec 25000000000000000 17], Dec 42077922077922075 18);
  ([Dec 41666666666666669 17; Dec 25000000000000000 17; Dec 25000000000000000 17], Dec 42077922077922075 18);
  ([Dec 25000000000000000 17; Dec 41666666666666669 17; Dec 25000000000000000 17], Dec 42077922077922075 18);
  ([Dec 83333333333333329 18; Dec 58333333333333337 17; Dec 25000000000000000 17], Dec 42077922077922075 18);
  ([Dec 41666666666666669 17; Dec 83333333333333329 18; Dec 41666666666666669 17], Dec 42077922077922075 18);
  ([Dec 25000000000000000 17; Dec 25000000000000000 17; Dec 41666666666666669 17], Dec 42077922077922075 18);
  ([Dec 83333333333333329 18; Dec 41666666666666669 17; Dec 41666666666666669 17], Dec 42077922077922075 18);
  ([Dec 25000000000000000 17; Dec 83333333333333329 18; Dec 58333333333333337 17], Dec 42077922077922075 18);
  ([Dec 83333333333333329 18; Dec 25000000000000000 17; Dec 58333333333333337 17], Dec 42077922077922075 18);
  ([Dec 83333333333333329 18; Dec 83333333333333329 18; Dec 75000000000000000 17], Dec 42077922077922075 18);
  ([Dec 58333333333333337 17; Dec 83333333333333329 18; Dec 83333333333333329 18], Dec 42077922077922075 18);
  ([Dec 41666666666666669 17; Dec 25000000000000000 17; Dec 83333333333333329 18], Dec 42077922077922075 18);
  ([Dec 25000000000000000 17; Dec 41666666666666669 17; Dec 83333333333333329 18], Dec 42077922077922075 18);
  ([Dec 83333333333333329 18; Dec 58333333333333337 17; Dec 83333333333333329 18], Dec 42077922077922075 18);
  ([Dec 41666666666666669 17; Dec 83333333333333329 18; Dec 25000000000000000 17], Dec 42077922077922075 18);
  ([Dec 25000000000000000 17; Dec 25000000000000000 17; Dec 25000000000000000 17], Dec 42077922077922075 18);
  ([Dec 83333333333333329 18; Dec 41666666666666669 17; Dec 25000000000000000 17], Dec 42077922077922075 18);
  ([Dec 25000000000000000 17; Dec 83333333333333329 18; Dec 41666666666666669 17], Dec 42077922077922075 18);
  ([Dec 83333333333333329 18; Dec 25000000000000000 17; Dec 41666666666666669 17], Dec 42077922077922075 18);
  ([Dec 83333333333333329 18; Dec 83333333333333329 18; Dec 58333333333333337 17], Dec 42077922077922075 18);
  ([Dec 41666666666666669 17; Dec 83333333333333329 18; Dec 83333333333333329 18], Dec 42077922077922075 18);
  ([Dec 25000000000000000 17; Dec 25000000000000000 17; Dec 83333333333333329 18], Dec 42077922077922075 18);
  ([Dec 83333333333333329 18; Dec 41666666666666669 17; Dec 83333333333333329 18], Dec 42077922077922075 18);
  ([Dec 25000000000000000 17; Dec 83333333333333329 18; Dec 25000000000000000 17], Dec 42077922077922075 18);
  ([Dec 83333333333333329 18; Dec 25000000000000000 17; Dec 25000000000000000 17], Dec 42077922077922075 18);
  ([Dec 83333333333333329 18; Dec 83333333333333329 18; Dec 41666666666666669 17], Dec 42077922077922075 18);
  ([Dec 25000000000000000 17; Dec 83333333333333329 18; Dec 83333333333333329 18], Dec 42077922077922075 18);
  ([Dec 83333333333333329 18; Dec 25000000000000000 17; Dec 83333333333333329 18], Dec 42077922077922075 18);
  ([Dec 83333333333333329 18; Dec 83333333333333329 18; Dec 25000000000000000 17], Dec 42077922077922075 18);
  ([Dec 83333333333333329 18; Dec 83333333333333329 18; Dec 83333333333333329 18], Dec 42077922077922075 18);
  ([Dec 69999999999999996 17; Dec 10000000000000001 17; Dec 10000000000000001 17], Dec (-97859798380631705) 18);
  ([Dec 50000000000000000 17; Dec 29999999999999999 17; Dec 10000000000000001 17], Dec (-97859798380631705) 18);
  ([Dec 29999999999999999 17; Dec 50000000000000000 17; Dec 10000000000000001 17], Dec (-97859798380631705) 18);
  ([Dec 10000000000000001 17; Dec 69999999999999996 17; Dec 10000000000000001 17], Dec (-97859798380631705) 18);
  ([Dec 50000000000000000 17; Dec 10000000000000001 17; Dec 29999999999999999 17], Dec (-97859798380631705) 18);
  ([Dec 29999999999999999 17; Dec 29999999999999999 17; Dec 29999999999999999 17], Dec (-97859798380631705) 18);
  ([Dec 10000000000000001 17; Dec 50000000000000000 17; Dec 29999999999999999 17], Dec (-97859798380631705) 18);
  ([Dec 29999999999999999 17; Dec 10000000000000001 17; Dec 50000000000000000 17], Dec (-97859798380631705) 18);
  ([Dec 10000000000000001 17; Dec 29999999999999999 17; Dec 50000000000000000 17], Dec (-97859798380631705) 18);
  ([Dec 10000000000000001 17; Dec 10000000000000001 17; Dec 69999999999999996 17], Dec (-97859798380631705) 18);
  ([Dec 50000000000000000 17; Dec 10000000000000001 17; Dec 10000000000000001 17], Dec (-97859798380631705) 18);
  ([Dec 29999999999999999 17; Dec 29999999999999999 17; Dec 10000000000000001 17], Dec (-97859798380631705) 18);
  ([Dec 10000000000000001 17; Dec 50000000000000000 17; Dec 10000000000000001 17], Dec (-97859798380631705) 18);
  ([Dec 29999999999999999 17; Dec 10000000000000001 17; Dec 29999999999999999 17], Dec (-97859798380631705) 18);
  ([Dec 10000000000000001 17; Dec 29999999999999999 17; Dec 29999999999999999 17], Dec (-97859798380631705) 18);
  ([Dec 10000000000000001 17; Dec 10000000000000001 17; Dec 50000000000000000 17], Dec (-97859798380631705) 18);
  ([Dec 29999999999999999 17; Dec 10000000000000001 17; Dec 10000000000000001 17], Dec (-97859798380631705) 18);
  ([Dec 10000000000000001 17; Dec 29999999999999999 17; Dec 10000000000000001 17], Dec (-97859798380631705) 18);
  ([Dec 10000000000000001 17; Dec 10000000000000001 17; Dec 29999999999999999 17], Dec (-97859798380631705) 18);
  ([Dec 10000000000000001 17; Dec 10000000000000001 17; Dec 10000000000000001 17], Dec (-97859798380631705) 18);
  ([Dec 62500000000000000 17; Dec 12500000000000000 17; Dec 12500000000000000 17], Dec 72239858906525581 18);
  ([Dec 37500000000000000 17; Dec 37500000000000000 17; Dec 12500000000000000 17], Dec 72239858906525581 18);
  ([Dec 12500000000000000 17; Dec 62500000000000000 17; Dec 12500000000000000 17], Dec 72239858906525581 18);
  ([Dec 37500000000000000 17; Dec 12500000000000000 17; Dec 37500000000000000 17], Dec 72239858906525581 18);
  ([Dec 12500000000000000 17; Dec 37500000000000000 17; Dec 37500000000000000 17], Dec 72239858906525581 18);
  ([Dec 12500000000000000 17; Dec 12500000000000000 17; Dec 62500000000000000 17], Dec 72239858906525581 18);
  ([Dec 37500000000000000 17; Dec 12500000000000000 17; Dec 12500000000000000 17], Dec 72239858906525581 18);
  ([Dec 12500000000000000 17; Dec 37500000000000000 17; Dec 12500000000000000 17], Dec 72239858906525581 18);
  ([Dec 12500000000000000 17; Dec 12500000000000000 17; Dec 37500000000000000 17], Dec 72239858906525581 18);
  ([Dec 12500000000000000 17; Dec 12500000000000000 17; Dec 12500000000000000 17], Dec 72239858906525581 18);
  ([Dec 50000000000000000 17; Dec 16666666666666666 17; Dec 16666666666666666 17], Dec (-18080357142857145) 18);
  ([Dec 16666666666666666 17; Dec 50000000000000000 17; Dec 16666666666666666 17], Dec (-18080357142857145) 18);
  ([Dec 16666666666666666 17; Dec 16666666666666666 17; Dec 50000000000000000 17], Dec (-18080357142857145) 18);
  ([Dec 16666666666666666 17; Dec 16666666666666666 17; Dec 16666666666666666 17], Dec (-18080357142857145) 18);
  ([Dec 25000000000000000 17; Dec 25000000000000000 17; Dec 25000000000000000 17], Dec 10582010582010581 19)].

(** FillPointsAndWeights, order 10: Quadrature_Gauss3D_Tetrahedron.cpp:956-1462. *)
Definition Tetrahedron_10 : rule := Rule false [
  ([Dec 78571428571428570 17; Dec 71428571428571425 18; Dec 71428571428571425 18], Dec 45362824065081006 18);
  ([Dec 64285714285714290 17; Dec 21428571428571427 17; Dec 71428571428571425 18], Dec 45362824065081006 18);
  ([Dec 50000000000000000 17; Dec 35714285714285715 17; Dec 71428571428571425 18], Dec 45362824065081006 18);
  ([Dec 35714285714285715 17; Dec 50000000000000000 17; Dec 71428571428571425 18], Dec 45362824065081006 18);
  ([Dec 21428571428571427 17; Dec 64285714285714290 17; Dec 71428571428571425 18], Dec 45362824065081006 18);
  ([Dec 71428571428571425 18; Dec 78571428571428570 17; Dec 71428571428571425 18], Dec 45362824065081006 18);
  ([Dec 64285714285714290 17; Dec 71428571428571425 18; Dec 21428571428571427 17], Dec 45362824065081006 18);
  ([Dec 50000000000000000 17; Dec 21428571428571427 17; Dec 21428571428571427 17], Dec 45362824065081006 18);
  ([Dec 35714285714285715 17; Dec 35714285714285715 17; Dec 21428571428571427 17], Dec 45362824065081006 18);
  ([Dec 21428571428571427 17; Dec 50000000000000000 17; Dec 21428571428571427 17], Dec 45362824065081006 18);
  ([Dec 71428571428571425 18; Dec 64285714285714290 17; Dec 21428571428571427 17], Dec 45362824065081006 18);
  ([Dec 50000000000000000 17; Dec 71428571428571425 18; Dec 35714285714285715 17], Dec 45362824065081006 18);
  ([Dec 35714285714285715 17; Dec 21428571428571427 17; Dec 35714285714285715 17], Dec 45362824065081006 18);
  ([Dec 21428571428571427 17; Dec 35714285714285715 17; Dec 35714285714285715 17], Dec 45362824065081006 18);
  ([Dec 71428571428571425 18; Dec 50000000000000000 17; Dec 35714285714285715 17], Dec 45362824065081006 18);
  ([Dec 35714285714285715 17; Dec 71428571428571425 18; Dec 50000000000000000 17], Dec 45362824065081006 18);
  ([Dec 21428571428571427 17; Dec 21428571428571427 17; Dec 50000000000000000 17], Dec 45362824065081006 18);
  ([Dec 71428571428571425 18; Dec 35714285714285715 17; Dec 50000000000000000 17], Dec 45362824065081006 18);
  ([Dec 21428571428571427 17; Dec 71428571428571425 18; Dec 64285714285714290 17], Dec 45362824065081006 18);
  ([Dec 71428571428571425 18; Dec 21428571428571427 17; Dec 64285714285714290 17], Dec 45362824065081006 18);
  ([Dec 71428571428571425 18; Dec 71428571428571425 18; Dec 78571428571428570 17], Dec 45362824065081006 18);
  ([Dec 64285714285714290 17; Dec 71428571428571425 18; Dec 71428571428571425 18], Dec 45362824065081006 18);
  ([Dec 50000000000000000 17; Dec 21428571428571427 17; Dec 71428571428571425 18], Dec 45362824065081006 18);
  ([Dec 35714285714285715 17; Dec 35714285714285715 17; Dec 71428571428571425 18], Dec 45362824065081006 18);
  ([Dec 21428571428571427 17; Dec 50000000000000000 17; Dec 71428571428571425 18], Dec 45362824065081006 18);
  ([Dec 71428571428571425 18; Dec 64285714285714290 17; Dec 71428571428571425 18], Dec 45362824065081006 18);
  ([Dec 50000000000000000 17; Dec 71428571428571425 18; Dec 21428571428571427 17], Dec 45362824065081006 18);
  ([Dec 35714285714285715 17; Dec 21428571428571427 17; Dec 21428571428571427 17], Dec 45362824065081006 18);
  ([Dec 21428571428571427 17; Dec 35714285714285715 17; Dec 21428571428571427 17], Dec 45362824065081006 18);
  ([Dec 71428571428571425 18; Dec 50000000000000000 17; Dec 21428571428571427 17], Dec 45362824065081006 18);
  ([Dec 35714285714285715 17; Dec 71428571428571425 18; Dec 35714285714285715 17], Dec 45362824065081006 18);
  ([Dec 21428571428571427 17; Dec 21428571428571427 17; Dec 35714285714285715 17], Dec 45362824065081006 18);
  ([Dec 71428571428571425 18; Dec 35714285714285715 17; Dec 35714285714285715 17], Dec 45362824065081006 18);
  ([Dec 21428571428571427 17; Dec 71428571428571425 18; Dec 50000000000000000 17], Dec 45362824065081006 18);
  ([Dec 71428571428571425 18; Dec 21428571428571427 17; Dec 50000000000000000 17], Dec 45362824065081006 18);
  ([Dec 71428571428571425 18; Dec 71428571428571425 18; Dec 64285714285714290 17], Dec 45362824065081006 18);
  ([Dec 50000000000000000 17; Dec 71428571428571425 18; Dec 71428571428571425 18], Dec 45362824065081006 18);
  ([Dec 35714285714285715 17; Dec 21428571428571427 17; Dec 71428571428571425 18], Dec 45362824065081006 18);
  ([Dec 21428571428571427 17; Dec 35714285714285715 17; Dec 71428571428571425 18], Dec 45362824065081006 18);
  ([Dec 71428571428571425 18; Dec 50000000000000000 17; Dec 71428571428571425 18], Dec 45362824065081006 18);
  ([Dec 35714285714285715 17; Dec 71428571428571425 18; Dec 21428571428571427 17], Dec 45362824065081006 18);
  ([Dec 21428571428571427 17; Dec 21428571428571427 17; Dec 21428571428571427 17], Dec 45362824065081006 18);
  ([Dec 71428571428571425 18; Dec 35714285714285715 17; Dec 21428571428571427 17], Dec 45362824065081006 18);
  ([Dec 21428571428571427 17; Dec 71428571428571425 18; Dec 35714285714285715 17], Dec 45362824065081006 18);
  ([Dec 71428571428571425 18; Dec 21428571428571427 17; Dec 35714285714285715 17], Dec 45362824065081006 18);
  ([Dec 71428571428571425 18; Dec 71428571428571425 18; Dec 50000000000000000 17], Dec 45362824065081006 18);
  ([Dec 35714285714285715 17; Dec 71428571428571425 18; Dec 71428571428571425 18], Dec 45362824065081006 18);
  ([Dec 21428571428571427 17; Dec 21428571428571427 17; Dec 71428571428571425 18], Dec 45362824065081006 18);
  ([Dec 71428571428571425 18; Dec 35714285714285715 17; Dec 71428571428571425 18], Dec 45362824065081006 18);
  ([Dec 21428571428571427 17; Dec 71428571428571425 18; Dec 21428571428571427 17], Dec 45362824065081006 18);
  ([Dec 71428571428571425 18; Dec 21428571428571427 17; Dec 21428571428571427 17], Dec 45362824065081006 18);
  ([Dec 71428571428571425 18; Dec 71428571428571425 18; Dec 35714285714285715 17], Dec 45362824065081006 18);
  ([Dec 21428571428571427 17; Dec 71428571428571425 18; Dec 71428571428571425 18], Dec 45362824065081006 18);
  ([Dec 71428571428571425 18; Dec 21428571428571427 17; Dec 71428571428571425 18], Dec 45362824065081006 18);
  ([Dec 71428571428571425 18; Dec 71428571428571425 18; Dec 21428571428571427 17], Dec 45362824065081006 18);
  ([Dec 71428571428571425 18; Dec 71428571428571425 18; Dec 71428571428571425 18], Dec 45362824065081006 18);
  ([Dec 75000000000000000 17; Dec 83333333333333329 18; Dec 83333333333333329 18], Dec (-11652347652347653) 17);
  ([Dec 58333333333333337 17; Dec 25000000000000000 17; Dec 83333333333333329 18], Dec (-11652347652347653) 17);
  ([Dec 41666666666666669 17; Dec 41666666666666669 17; Dec 83333333333333329 18], Dec (-11652347652347653) 17);
  ([Dec 25000000000000000 17; Dec 58333333333333337 17; Dec 83333333333333329 18], Dec (-11652347652347653) 17);
  ([Dec 83333333333333329 18; Dec 75000000000000000 17; Dec 83333333333333329 18], Dec (-11652347652347653) 17);
  ([Dec 58333333333333337 17; Dec 83333333333333329 18; Dec 25000000000000000 17], Dec (-11652347652347653) 17);
  ([Dec 41666666666666669 17; Dec 25000000000000000 17; Dec 25000000000000000 17], Dec (-11652347652347653) 17);
  ([Dec 25000000000000000 17; Dec 41666666666666669 17; Dec 25000000000000000 17], Dec (-11652347652347653) 17);
  ([Dec 83333333333333329 18; Dec 58333333333333337 17; Dec 25000000000000000 17], Dec (-11652347652347653) 17);
  ([Dec 41666666666666669 17; Dec 83333333333333329 18; Dec 41666666666666669 17], Dec (-11652347652347653) 17);
  ([Dec 25000000000000000 17; Dec 25000000000000000 17; Dec 41666666666666669 17], Dec (-11652347652347653) 17);
  ([Dec 83333333333333329 18; Dec 41666666666666669 17; Dec 41666666666666669 17], Dec (-11652347652347653) 17);
  ([Dec 25000000000000000 17; Dec 83333333333333329 18; Dec 58333333333333337 17], Dec (-11652347652347653) 17);
  ([Dec 83333333333333329 18; Dec 25000000000000000 17; Dec 58333333333333337 17], Dec (-11652347652347653) 17);
  ([Dec 83333333333333329 18; Dec 83333333333333329 18; Dec 75000000000000000 17], Dec (-11652347652347653) 17);
  ([Dec 58333333333333337 17; Dec 83333333333333329 18; Dec 83333333333333329 18], Dec (-11652347652347653) 17);
  ([Dec 41666666666666669 17; Dec 25000000000000000 17; Dec 83333333333333329 18], Dec (-11652347652347653) 17);
  ([Dec 25000000000000000 17; Dec 41666666666666669 17; Dec 83333333333333329 18], Dec (-11652347652347653) 17);
  ([Dec 83333333333333329 18; Dec 58333333333333337 17; Dec 83333333333333329 18], Dec (-11652347652347653) 17);
  ([Dec 41666666666666669 17; Dec 83333333333333329 18; Dec 25000000000000000 17], Dec (-11652347652347653) 17);
  ([Dec 25000000000000000 17; Dec 25000000000000000 17; Dec 25000000000000000 17], Dec (-11652347652347653) 17);
  ([Dec 83333333333333329 18; Dec 41666666666666669 17; Dec 25000000000000000 17], Dec (-11652347652347653) 17);
  ([Dec 25000000000000000 17; Dec 83333333333333329 18; Dec 41666666666666669 17], Dec (-11652347652347653) 17);
  ([Dec 83333333333333329 18; Dec 25000000000000000 17; Dec 41666666666666669 17], Dec (-11652347652347653) 17);
  ([Dec 83333333333333329 18; Dec 83333333333333329 18; Dec 58333333333333337 17], Dec (-11652347652347653) 17);
  ([Dec 41666666666666669 17; Dec 83333333333333329 18; Dec 83333333333333329 18], Dec (-11652347652347653) 17);
  ([Dec 25000000000000000 17; Dec 25000000000000000 17; Dec 83333333333333329 18], Dec (-11652347652347653) 17);
  ([Dec 83333333333333329 18; Dec 41666666666666669 17; Dec 83333333333333329 18], Dec (-11652347652347653) 17);
  ([Dec 25000000000000000 17; Dec 83333333333333329 18; Dec 25000000000000000 17], Dec (-11652347652347653) 17);
  ([Dec 83333333333333329 18; Dec 25000000000000000 17; Dec 25000000000000000 17], Dec (-11652347652347653) 17);
  ([Dec 83333333333333329 18; Dec 83333333333333329 18; Dec 41666666666666669 17], Dec (-11652347652347653) 17);
  ([Dec 25000000000000000 17; Dec 83333333333333329 18; Dec 83333333333333329 18], Dec (-11652347652347653) 17);
  ([Dec 83333333333333329 18; Dec 25000000000000000 17; Dec 83333333333333329 18], Dec (-11652347652347653) 17);
  ([Dec 83333333333333329 18; Dec 83333333333333329 18; Dec 25000000000000000 17], Dec (-11652347652347653) 17);
  ([Dec 83333333333333329 18; Dec 83333333333333329 18; Dec 83333333333333329 18], Dec (-11652347652347653) 17);
  ([Dec 69999999999999996 17; Dec 10000000000000001 17; Dec 10000000000000001 17], Dec 10193728997982469 17);
  ([Dec 50000000000000000 17; Dec 29999999999999999 17; Dec 10000000000000001 17], Dec 10193728997982469 17);
  ([Dec 29999999999999999 17; Dec 50000000000000000 17; Dec 10000000000000001 17], Dec 10193728997982469 17);
  ([Dec 10000000000000001 17; Dec 69999999999999996 17; Dec 10000000000000001 17], Dec 10193728997982469 17);
  ([Dec 50000000000000000 17; Dec 10000000000000001 17; Dec 29999999999999999 17], Dec 10193728997982469 17);
  ([Dec 29999999999999999 17; Dec 29999999999999999 17; Dec 29999999999999999 17], Dec 10193728997982469 17);
  ([Dec 10000000000000001 17; Dec 50000000000000000 17; Dec 29999999999999999 17], Dec 10193728997982469 17);
  ([Dec 29999999999999999 17; Dec 10000000000000001 17; Dec 50000000000000000 17], Dec 10193728997982469 17);
  ([Dec 10000000000000001 17; Dec 29999999999999999 17; Dec 50000000000000000 17], Dec 10193728997982469 17);
  ([Dec 10000000000000001 17; Dec 10000000000000001 17; Dec 69999999999999996 17], Dec 10193728997982469 17);
  ([Dec 50000000000000000 17; Dec 10000000000000001 17; Dec 10000000000000001 17], Dec 10193728997982469 17);
  ([Dec 29999999999999999 17; Dec 29999999999999999 17; Dec 10000000000000001 17], Dec 10193728997982469 17);
  ([Dec 10000000000000001 17; Dec 50000000000000000 17; Dec 10000000000000001 17], Dec 10193728997982469 17);
  ([Dec 29999999999999999 17; Dec 10000000000000001 17; Dec 29999999999999999 17], Dec 10193728997982469 17);
  ([Dec 10000000000000001 17; Dec 29999999999999999 17; Dec 29999999999999999 17], Dec 10193728997982469 17);
  ([Dec 10000000000000001 17; Dec 10000000000000001 17; Dec 50000000000000000 17], Dec 10193728997982469 17);
  ([Dec 29999999999999999 17; Dec 10000000000000001 17; Dec 10000000000000001 17], Dec 10193728997982469 17);
  ([Dec 10000000000000001 17; Dec 29999999999999999 17; Dec 10000000000000001 17], Dec 10193728997982469 17);
  ([Dec 10000000000000001 17; Dec 10000000000000001 17; Dec 29999999999999999 17], Dec 10193728997982469 17);
  ([Dec 10000000000000001 17; Dec 10000000000000001 17; Dec 10000000000000001 17], Dec 10193728997982469 17);
  ([Dec 62500000000000000 17; Dec 12500000000000000 17; Dec 12500000000000000 17], Dec (-35025386136497243) 18);
  ([Dec 37500000000000000 17; Dec 37500000000000000 17; Dec 12500000000000000 17], Dec (-35025386136497243) 18);
  ([Dec 12500000000000000 17; Dec 62500000000000000 17; Dec 12500000000000000 17], Dec (-35025386136497243) 18);
  ([Dec 37500000000000000 17; Dec 12500000000000000 17; Dec 37500000000000000 17], Dec (-35025386136497243) 18);
  ([Dec 12500000000000000 17; Dec 37500000000000000 17; Dec 37500000000000000 17], Dec (-35025386136497243) 18);
  ([Dec 12500000000000000 17; Dec 12500000000000000 17; Dec 62500000000000000 17], Dec (-35025386136497243) 18);
  ([Dec 37500000000000000 17; Dec 12500000000000000 17; Dec 12500000000000000 17], Dec (-35025386136497243) 18);
  ([Dec 12500000000000000 17; Dec 37500000000000000 17; Dec 12500000000000000 17], Dec (-35025386136497243) 18);
  ([Dec 12500000000000000 17; Dec 12500000000000000 17; Dec 37500000000000000 17], Dec (-35025386136497243) 18);
  ([Dec 12500000000000000 17; Dec 12500000000000000 17; Dec 12500000000000000 17], Dec (-35025386136497243) 18);
  ([Dec 50000000000000000 17; Dec 16666666666666666 17; Dec 16666666666666666 17], Dec 40680803571428569 19);
  ([Dec 16666666666666666 17; Dec 50000000000000000 17; Dec 16666666666666666 17], Dec 40680803571428569 19);
  ([Dec 16666666666666666 17; Dec 16666666666666666 17; Dec 50000000000000000 17], Dec 40680803571428569 19);
  ([Dec 16666666666666666 17; Dec 16666666666666666 17; Dec 16666666666666666 17], Dec 40680803571428569 19);
  ([Dec 25000000000000000 17; Dec 25000000000000000 17; Dec 25000000000000000 17], Dec (-94062316284538485) 21)].

(** FillPointsAndWeights, order 11: Quadrature_Gauss3D_Tetrahedron.cpp:1465-1971. *)
Definition Tetrahedron_11 : rule := Rule false [
  ([Dec 78571428571428570 17; Dec 71428571428571425 18; Dec 71428571428571425 18], Dec 45362824065081006 18);
  ([Dec 64285714285714290 17; Dec 21428571428571427 17; Dec 71428571428571425 18], Dec 45362824065081006 18);
  ([Dec 50000000000000000 17; Dec 35714285714285715 17; Dec 71428571428571425 18], Dec 45362824065081006 18);
  ([Dec 35714285714285715 17; Dec 50000000000000000 17; Dec 71428571428571425 18], Dec 45362824065081006 18);
  ([Dec 21428571428571427 17; Dec 64285714285714290 17; Dec 71428571428571425 18], Dec 45362824065081006 18);
  ([Dec 71428571428571425 18; Dec 78571428571428570 17; Dec 71428571428571425 18], Dec 45362824065081006 18);
  ([Dec 64285714285714290 17; Dec 71428571428571425 18; Dec 21428571428571427 17], Dec 45362824065081006 18);
  ([Dec 50000000000000000 17; Dec 21428571428571427 17; Dec 21428571428571427 17], Dec 45362824065081006 18);
  ([Dec 35714285714285715 17; Dec 35714285714285715 17; Dec 21428571428571427 17], Dec 45362824065081006 18);
  ([Dec 21428571428571427 17; Dec 50000000000000000 17; Dec 21428571428571427 17], Dec 45362824065081006 18);
  ([Dec 71428571428571425 18; Dec 64285714285714290 17; Dec 21428571428571427 17], Dec 45362824065081006 18);
  ([Dec 50000000000000000 17; Dec 71428571428571425 18; Dec 35714285714285715 17], Dec 45362824065081006 18);
  ([Dec 35714285714285715 17; Dec 21428571428571427 17; Dec 35714285714285715 17], Dec 45362824065081006 18);
  ([Dec 21428571428571427 17; Dec 35714285714285715 17; Dec 35714285714285715 17], Dec 45362824065081006 18);
  ([Dec 71428571428571425 18; Dec 50000000000000000 17; Dec 35714285714285715 17], Dec 45362824065081006 18);
  ([Dec 35714285714285715 17; Dec 71428571428571425 18; Dec 50000000000000000 17], Dec 45362824065081006 18);
  ([Dec 21428571428571427 17; Dec 21428571428571427 17; Dec 50000000000000000 17], Dec 45362824065081006 18);
  ([Dec 71428571428571425 18; Dec 35714285714285715 17; Dec 50000000000000000 17], Dec 45362824065081006 18);
  ([Dec 21428571428571427 17; Dec 71428571428571425 18; Dec 64285714285714290 17], Dec 45362824065081006 18);
  ([Dec 71428571428571425 18; Dec 21428571428571427 17; Dec 64285714285714290 17], Dec 45362824065081006 18);
  ([Dec 71428571428571425 18; Dec 71428571428571425 18; Dec 78571428571428570 17], Dec 45362824065081006 18);
  ([Dec 64285714285714290 17; Dec 71428571428571425 18; Dec 71428571428571425 18], Dec 45362824065081006 18);
  ([Dec 50000000000000000 17; Dec 21428571428571427 17; Dec 71428571428571425 18], Dec 45362824065081006 18);
  ([Dec 35714285714285715 17; Dec 35714285714285715 17; Dec 71428571428571425 18], Dec 45362824065081006 18);
  ([Dec 21428571428571427 17; Dec 50000000000000000 17; Dec 71428571428571425 18], Dec 45362824065081006 18);
  ([Dec 71428571428571425 18; Dec 64285714285714290 17; Dec 71428571428571425 18], Dec 45362824065081006 18);
  ([Dec 50000000000000000 17; Dec 71428571428571425 18; Dec 21428571428571427 17], Dec 45362824065081006 18);
  ([Dec 35714285714285715 17; Dec 21428571428571427 17; Dec 21428571428571427 17], Dec 45362824065081006 18);
  ([Dec 21428571428571427 17; Dec 35714285714285715 17; Dec 21428571428571427 17], Dec 45362824065081006 18);
  ([Dec 71428571428571425 18; Dec 50000000000000000 17; Dec 21428571428571427 17], Dec 45362824065081006 18);
  ([Dec 35714285714285715 17; Dec 71428571428571425 18; Dec 35714285714285715 17], Dec 45362824065081006 18);
  ([Dec 21428571428571427 17; Dec 21428571428571427 17; Dec 35714285714285715 17], Dec 45362824065081006 18);
  ([Dec 71428571428571425 18; Dec 35714285714285715 17; Dec 35714285714285715 17], Dec 45362824065081006 18);
  ([Dec 21428571428571427 17; Dec 71428571428571425 18; Dec 50000000000000000 17], Dec 45362824065081006 18);
  ([Dec 71428571428571425 18; Dec 21428571428571427 17; Dec 50000000000000000 17], Dec 45362824065081006 18);
  ([Dec 71428571428571425 18; Dec 71428571428571425 18; Dec 64285714285714290 17], Dec 45362824065081006 18);
  ([Dec 50000000000000000 17; Dec 71428571428571425 18; Dec 71428571428571425 18], Dec 45362824065081006 18);
  ([Dec 35714285714285715 17; Dec 21428571428571427 17; Dec 71428571428571425 18], Dec 45362824065081006 18);
  ([Dec 21428571428571427 17; Dec 35714285714285715 17; Dec 71428571428571425 18], Dec 45362824065081006 18);
  ([Dec 71428571428571425 18; Dec 50000000000000000 17; Dec 71428571428571425 18], Dec 45362824065081006 18);
  ([Dec 35714285714285715 17; Dec 71428571428571425 18; Dec 21428571428571427 17], Dec 45362824065081006 18);
  ([Dec 21428571428571427 17; Dec 21428571428571427 17; Dec 21428571428571427 17], Dec 45362824065081006 18);
  ([Dec 71428571428571425 18; Dec 35714285714285715 17; Dec 21428571428571427 17], Dec 45362824065081006 18);
  ([Dec 21428571428571427 17; Dec 71428571428571425 18; Dec 35714285714285715 17], Dec 45362824065081006 18);
  ([Dec 71428571428571425 18; Dec 21428571428571427 17; Dec 35714285714285715 17], Dec 45362824065081006 18);
  ([Dec 71428571428571425 18; Dec 71428571428571425 18; Dec 50000000000000000 17], Dec 45362824065081006 18);
  ([Dec 35714285714285715 17; Dec 71428571428571425 18; Dec 71428571428571425 18], Dec 45362824065081006 18);
  ([Dec 21428571428571427 17; Dec 21428571428571427 17; Dec 71428571428571425 18], Dec 45362824065081006 18);
  ([Dec 71428571428571425 18; Dec 35714285714285715 17; Dec 71428571428571425 18], Dec 45362824065081006 18);
  ([Dec 21428571428571427 17; Dec 71428571428571425 18; Dec 21428571428571427 17], Dec 45362824065081006 18);
  ([Dec 71428571428571425 18; Dec 21428571428571427 17; Dec 21428571428571427 17], Dec 45362824065081006 18);
  ([Dec 71428571428571425 18; Dec 71428571428571425 18; Dec 35714285714285715 17], Dec 45362824065081006 18);
  ([Dec 21428571428571427 17; Dec 71428571428571425 18; Dec 71428571428571425 18], Dec 45362824065081006 18);
  ([Dec 71428571428571425 18; Dec 21428571428571427 17; Dec 71428571428571425 18], Dec 45362824065081006 18);
  ([Dec 71428571428571425 18; Dec 71428571428571425 18; Dec 21428571428571427 17], Dec 45362824065081006 18);
  ([Dec 71428571428571425 18; Dec 71428571428571425 18; Dec 71428571428571425 18], Dec 45362824065081006 18);
  ([Dec 75000000000000000 17; Dec 83333333333333329 18; Dec 83333333333333329 18], Dec (-11652347652347653) 17);
  ([Dec 58333333333333337 17; Dec 25000000000000000 17; Dec 83333333333333329 18], Dec (-11652347652347653) 17);
  ([Dec 41666666666666669 17; Dec 41666666666666669 17; Dec 83333333333333329 18], Dec (-11652347652347653) 17);
  ([Dec 25000000000000000 17; Dec 58333333333333337 17; Dec 83333333333333329 18], Dec (-11652347652347653) 17);
  ([Dec 83333333333333329 18; Dec 75000000000000000 17; Dec 83333333333333329 18], Dec (-11652347652347653) 17);
  ([Dec 58333333333333337 17; Dec 83333333333333329 18; Dec 25000000000000000 17], Dec (-11652347652347653) 17);
  ([Dec 41666666666666669 17; Dec 25000000000000000 17; Dec 25000000000000000 17], Dec (-11652347652347653) 17);
  ([Dec 25000000000000000 17; Dec 41666666666666669 17; Dec 25000000000000000 17], Dec (-11652347652347653) 17);
  ([Dec 83333333333333329 18; Dec 58333333333333337 17; Dec 25000000000000000 17], Dec (-11652347652347653) 17);
  ([Dec 41666666666666669 17; Dec 83333333333333329 18; Dec 41666666666666669 17], Dec (-11652347652347653) 17);
  ([Dec 25000000000000000 17; Dec 25000000000000000 17; Dec 41666666666666669 17], Dec (-11652347652347653) 17);
  ([Dec 83333333333333329 18; Dec 41666666666666669 17; Dec 41666666666666669 17], Dec (-11652347652347653) 17);
  ([Dec 25000000000000000 17; Dec 83333333333333329 18; Dec 58333333333333337 17], Dec (-11652347652347653) 17);
  ([Dec 83333333333333329 18; Dec 25000000000000000 17; Dec 58333333333333337 17], Dec (-11652347652347653) 17);
  ([Dec 83333333333333329 18; Dec 83333333333333329 18; Dec 75000000000000000 17], Dec (-11652347652347653) 17);
  ([Dec 58333333333333337 17; Dec 83333333333333329 18; Dec 83333333333333329 18], Dec (-11652347652347653) 17);
  ([Dec 41666666666666669 17; Dec 25000000000000000 17; Dec 83333333333333329 18], Dec (-11652347652347653) 17);
  ([Dec 25000000000000000 17; Dec 41666666666666669 17; Dec 83333333333333329 18], Dec (-11652347652347653) 17);
  ([Dec 83333333333333329 18; Dec 58333333333333337 17; Dec 83333333333333329 18], Dec (-11652347652347653) 17);
  ([Dec 41666666666666669 17; Dec 83333333333333329 18; Dec 25000000000000000 17], Dec (-11652347652347653) 17);
  ([Dec 25000000000000000 17; Dec 25000000000000000 17; Dec 25000000000000000 17], Dec (-11652347652347653) 17);
  ([Dec 83333333333333329 18; Dec 41666666666666669 17; Dec 25000000000000000 17], Dec (-11652347652347653) 17);
  ([Dec 25000000000000000 17; Dec 83333333333333329 18; Dec 41666666666666669 17], Dec (-11652347652347653) 17);
  ([Dec 83333333333333329 18; Dec 25000000000000000 17; Dec 41666666666666669 17], Dec (-11652347652347653) 17);
  ([Dec 83333333333333329 18; Dec 83333333333333329 18; Dec 58333333333333337 17], Dec (-11652347652347653) 17);
  ([Dec 41666666666666669 17; Dec 83333333333333329 18; Dec 83333333333333329 18], Dec (-11652347652347653) 17);
  ([Dec 25000000000000000 17; Dec 25000000000000000 17; Dec 83333333333333329 18], Dec (-11652347652347653) 17);
  ([Dec 83333333333333329 18; Dec 41666666666666669 17; Dec 83333333333333329 18], Dec (-11652347652347653) 17);
  ([Dec 25000000000000000 17; Dec 83333333333333329 18; Dec 25000000000000000 17], Dec (-11652347652347653) 17);
  ([Dec 83333333333333329 18; Dec 25000000000000000 17; Dec 25000000000000000 17], Dec (-11652347652347653) 17);
  ([Dec 83333333333333329 18; Dec 83333333333333329 18; Dec 41666666666666669 17], Dec (-11652347652347653) 17);
  ([Dec 25000000000000000 17; Dec 83333333333333329 18; Dec 83333333333333329 18], Dec (-11652347652347653) 17);
  ([Dec 83333333333333329 18; Dec 25000000000000000 17; Dec 83333333333333329 18], Dec (-11652347652347653) 17);
  ([Dec 83333333333333329 18; Dec 83333333333333329 18; Dec 25000000000000000 17], Dec (-11652347652347653) 17);
  ([Dec 83333333333333329 18; Dec 83333333333333329 18; Dec 83333333333333329 18], Dec (-11652347652347653) 17);
  ([Dec 69999999999999996 17; Dec 10000000000000001 17; Dec 10000000000000001 17], Dec 10193728997982469 17);
  ([Dec 50000000000000000 17; Dec 29999999999999999 17; Dec 10000000000000001 17], Dec 10193728997982469 17);
  ([Dec 29999999999999999 17; Dec 50000000000000000 17; Dec 10000000000000001 17], Dec 10193728997982469 17);
  ([Dec 10000000000000001 17; Dec 69999999999999996 17; Dec 10000000000000001 17], Dec 10193728997982469 17);
  ([Dec 50000000000000000 17; Dec 10000000000000001 17; Dec 29999999999999999 17], Dec 10193728997982469 17);
  ([Dec 29999999999999999 17; Dec 29999999999999999 17; Dec 29999999999999999 17], Dec 10193728997982469 17);
  ([Dec 10000000000000001 17; Dec 50000000000000000 17; Dec 29999999999999999 17], Dec 10193728997982469 17);
  ([Dec 29999999999999999 17; Dec 10000000000000001 17; Dec 50000000000000000 17], Dec 10193728997982469 17);
  ([Dec 10000000000000001 17; Dec 29999999999999999 17; Dec 50000000000000000 17], Dec 10193728997982469 17);
  ([Dec 10000000000000001 17; Dec 10000000000000001 17; Dec 69999999999999996 17], Dec 10193728997982469 17);
  ([Dec 50000000000000000 17; Dec 10000000000000001 17; Dec 10000000000000001 17], Dec 10193728997982469 17);
  ([Dec 29999999999999999 17; Dec 29999999999999999 17; Dec 10000000000000001 17], Dec 10193728997982469 17);
  ([Dec 10000000000000001 17; Dec 50000000000000000 17; Dec 10000000000000001 17], Dec 10193728997982469 17);
  ([Dec 29999999999999999 17; Dec 10000000000000001 17; Dec 29999999999999999 17], Dec 10193728997982469 17);
  ([Dec 10000000000000001 17; Dec 29999999999999999 17; Dec 29999999999999999 17], Dec 10193728997982469 17);
  ([Dec 10000000000000001 17; Dec 10000000000000001 17; Dec 50000000000000000 17], Dec 10193728997982469 17);
  ([Dec 29999999999999999 17; Dec 10000000000000001 17; Dec 10000000000000001 17], Dec 10193728997982469 17);
  ([Dec 10000000000000001 17; Dec 29999999999999999 17; Dec 10000000000000001 17], Dec 10193728997982469 17);
  ([Dec 10000000000000001 17; Dec 10000000000000001 17; Dec 29999999999999999 17], Dec 10193728997982469 17);
  ([Dec 10000000000000001 17; Dec 10000000000000001 17; Dec 10000000000000001 17], Dec 10193728997982469 17);
  ([Dec 62500000000000000 17; Dec 12500000000000000 17; Dec 12500000000000000 17], Dec (-35025386136497243) 18);
  ([Dec 37500000000000000 17; Dec 37500000000000000 17; Dec 12500000000000000 17], Dec (-35025386136497243) 18);
  ([Dec 12500000000000000 17; Dec 62500000000000000 17; Dec 12500000000000000 17], Dec (-35025386136497243) 18);
  ([Dec 37500000000000000 17; Dec 12500000000000000 17; Dec 37500000000000000 17], Dec (-35025386136497243) 18);
  ([Dec 12500000000000000 17; Dec 37500000000000000 17; Dec 37500000000000000 17], Dec (-35025386136497243) 18);
  ([Dec 12500000000000000 17; Dec 12500000000000000 17; Dec 62500000000000000 17], Dec (-35025386136497243) 18);
  ([Dec 37500000000000000 17; Dec 12500000000000000 17; Dec 12500000000000000 17], Dec (-35025386136497243) 18);
  ([Dec 12500000000000000 17; Dec 37500000000000000 17; Dec 12500000000000000 17], Dec (-35025386136497243) 18);
  ([Dec 12500000000000000 17; Dec 12500000000000000 17; Dec 37500000000000000 17], Dec (-35025386136497243) 18);
  ([Dec 12500000000000000 17; Dec 12500000000000000 17; Dec 12500000000000000 17], Dec (-35025386136497243) 18);
  ([Dec 50000000000000000 17; Dec 16666666666666666 17; Dec 16666666666666666 17], Dec 40680803571428569 19);
  ([Dec 16666666666666666 17; Dec 50000000000000000 17; Dec 16666666666666666 17], Dec 40680803571428569 19);
  ([Dec 16666666666666666 17; Dec 16666666666666666 17; Dec 50000000000000000 17], Dec 40680803571428569 19);
  ([Dec 16666666666666666 17; Dec 16666666666666666 17; Dec 16666666666666666 17], Dec 40680803571428569 19);
  ([Dec 25000000000000000 17; Dec 25000000000000000 17; Dec 25000000000000000 17], Dec (-94062316284538485) 21)].

(** FillPointsAndWeights, order 12: Quadrature_Gauss3D_Tetrahedron.cpp:1974-2816. *)
Definition Tetrahedron_12 : rule := Rule false [
  ([Dec 81250000000000000 17; Dec 62500000000000000 18; Dec 62500000000000000 18], Dec 52550909016517489 18);
  ([Dec 68750000000000000 17; Dec 18750000000000000 17; Dec 62500000000000000 18], Dec 52550909016517489 18);
  ([Dec 56250000000000000 17; Dec 31250000000000000 17; Dec 62500000000000000 18], Dec 52550909016517489 18);
  ([Dec 43750000000000000 17; Dec 43750000000000000 17; Dec 62500000000000000 18], Dec 52550909016517489 18);
  ([Dec 31250000000000000 17; Dec 56250000000000000 17; Dec 62500000000000000 18], Dec 52550909016517489 18);
  ([Dec 18750000000000000 17; Dec 68750000000000000 17; Dec 62500000000000000 18], Dec 52550909016517489 18);
  ([Dec 62500000000000000 18; Dec 81250000000000000 17; Dec 62500000000000000 18], Dec 52550909016517489 18);
  ([Dec 68750000000000000 17; Dec 62500000000000000 18; Dec 18750000000000000 17], Dec 52550909016517489 18);
  ([Dec 56250000000000000 17; Dec 18750000000000000 17; Dec 18750000000000000 17], Dec 52550909016517489 18);
  ([Dec 43750000000000000 17; Dec 31250000000000000 17; Dec 18750000000000000 17], Dec 52550909016517489 18);
  ([Dec 31250000000000000 17; Dec 43750000000000000 17; Dec 18750000000000000 17], Dec 52550909016517489 18);
  ([Dec 18750000000000000 17; Dec 56250000000000000 17; Dec 18750000000000000 17], Dec 52550909016517489 18);
  ([Dec 62500000000000000 18; Dec 68750000000000000 17; Dec 18750000000000000 17], Dec 52550909016517489 18);
  ([Dec 56250000000000000 17; Dec 62500000000000000 18; Dec 31250000000000000 17], Dec 52550909016517489 18);
  ([Dec 43750000000000000 17; Dec 18750000000000000 17; Dec 31250000000000000 17], Dec 52550909016517489 18);
  ([Dec 31250000000000000 17; Dec 31250000000000000 17; Dec 31250000000000000 17], Dec 52550909016517489 18);
  ([Dec 18750000000000000 17; Dec 43750000000000000 17; Dec 31250000000000000 17], Dec 52550909016517489 18);
  ([Dec 62500000000000000 18; Dec 56250000000000000 17; Dec 31250000000000000 17], Dec 52550909016517489 18);
  ([Dec 43750000000000000 17; Dec 62500000000000000 18; Dec 43750000000000000 17], Dec 52550909016517489 18);
  ([Dec 31250000000000000 17; Dec 18750000000000000 17; Dec 43750000000000000 17], Dec 52550909016517489 18);
  ([Dec 18750000000000000 17; Dec 31250000000000000 17; Dec 43750000000000000 17], Dec 52550909016517489 18);
  ([Dec 62500000000000000 18; Dec 43750000000000000 17; Dec 43750000000000000 17], Dec 52550909016517489 18);
  ([Dec 31250000000000000 17; Dec 62500000000000000 18; Dec 56250000000000000 17], Dec 52550909016517489 18);
  ([Dec 18750000000000000 17; Dec 18750000000000000 17; Dec 56250000000000000 17], Dec 52550909016517489 18);
  ([Dec 62500000000000000 18; Dec 31250000000000000 17; Dec 56250000000000000 17], Dec 52550909016517489 18);
  ([Dec 18750000000000000 17; Dec 62500000000000000 18; Dec 68750000000000000 17], Dec 52550909016517489 18);
  ([Dec 62500000000000000 18; Dec 18750000000000000 17; Dec 68750000000000000 17], Dec 52550909016517489 18);
  ([Dec 62500000000000000 18; Dec 62500000000000000 18; Dec 81250000000000000 17], Dec 52550909016517489 18);
  ([Dec 68750000000000000 17; Dec 62500000000000000 18; Dec 62500000000000000 18], Dec 52550909016517489 18);
  ([Dec 56250000000000000 17; Dec 18750000000000000 17; Dec 62500000000000000 18], Dec 52550909016517489 18);
  ([Dec 43750000000000000 17; Dec 31250000000000000 17; Dec 62500000000000000 18], Dec 52550909016517489 18);
  ([Dec 31250000000000000 17; Dec 43750000000000000 17; Dec 62500000000000000 18], Dec 52550909016517489 18);
  ([Dec 18750000000000000 17; Dec 56250000000000000 17; Dec 62500000000000000 18], Dec 52550909016517489 18);
  ([Dec 62500000000000000 18; Dec 68750000000000000 17; Dec 62500000000000000 18], Dec 52550909016517489 18);
  ([Dec 56250000000000000 17; Dec 62500000000000000 18; Dec 18750000000000000 17], Dec 52550909016517489 18);
  ([Dec 43750000000000000 17; Dec 18750000000000000 17; Dec 18750000000000000 17], Dec 52550909016517489 18);
  ([Dec 31250000000000000 17; Dec 31250000000000000 17; Dec 18750000000000000 17], Dec 52550909016517489 18);
  ([Dec 18750000000000000 17; Dec 43750000000000000 17; Dec 18750000000000000 17], Dec 52550909016517489 18);
  ([Dec 62500000000000000 18; Dec 56250000000000000 17; Dec 18750000000000000 17], Dec 52550909016517489 18);
  ([Dec 43750000000000000 17; Dec 62500000000000000 18; Dec 31250000000000000 17], Dec 52550909016517489 18);
  ([Dec 31250000000000000 17; Dec 18750000000000000 17; Dec 31250000000000000 17], Dec 52550909016517489 18);
  ([Dec 18750000000000000 17; Dec 31250000000000000 17; Dec 31250000000000000 17], Dec 52550909016517489 18);
  ([Dec 62500000000000000 18; Dec 43750000000000000 17; Dec 31250000000000000 17], Dec 52550909016517489 18);
  ([Dec 31250000000000000 17; Dec 62500000000000000 18; Dec 43750000000000000 17], Dec 52550909016517489 18);
  ([Dec 18750000000000000 17; Dec 18750000000000000 17; Dec 43750000000000000 17], Dec 52550909016517489 18);
  ([Dec 62500000000000000 18; Dec 31250000000000000 17; Dec 43750000000000000 17], Dec 52550909016517489 18);
  ([Dec 18750000000000000 17; Dec 62500000000000000 18; Dec 56250000000000000 17], Dec 52550909016517489 18);
  ([Dec 62500000000000000 18; Dec 18750000000000000 17; Dec 56250000000000000 17], Dec 52550909016517489 18);
  ([Dec 62500000000000000 18; Dec 62500000000000000 18; Dec 68750000000000000 17], Dec 52550909016517489 18);
  ([Dec 56250000000000000 17; Dec 62500000000000000 18; Dec 62500000000000000 18], Dec 52550909016517489 18);
  ([Dec 43750000000000000 17; Dec 18750000000000000 17; Dec 62500000000000000 18], Dec 52550909016517489 18);
  ([Dec 31250000000000000 17; Dec 31250000000000000 17; Dec 62500000000000000 18], Dec 52550909016517489 18);
  ([Dec 18750000000000000 17; Dec 43750000000000000 17; Dec 62500000000000000 18], Dec 52550909016517489 18);
  ([Dec 62500000000000000 18; Dec 56250000000000000 17; Dec 62500000000000000 18], Dec 52550909016517489 18);
  ([Dec 43750000000000000 17; Dec 62500000000000000 18; Dec 18750000000000000 17], Dec 52550909016517489 18);
  ([Dec 31250000000000000 17; Dec 18750000000000000 17; Dec 18750000000000000 17], Dec 52550909016517489 18);
  ([Dec 18750000000000000 17; Dec 31250000000000000 17; Dec 18750000000000000 17], Dec 52550909016517489 18);
  ([Dec 62500000000000000 18; Dec 43750000000000000 17; Dec 18750000000000000 17], Dec 52550909016517489 18);
  ([Dec 31250000000000000 17; Dec 62500000000000000 18; Dec 31250000000000000 17], Dec 52550909016517489 18);
  ([Dec 18750000000000000 17; Dec 18750000000000000 17; Dec 31250000000000000 17], Dec 52550909016517489 18);
  ([Dec 62500000000000000 18; Dec 31250000000000000 17; Dec 31250000000000000 17], Dec 52550909016517489 18);
  ([Dec 18750000000000000 17; Dec 62500000000000000 18; Dec 43750000000000000 17], Dec 52550909016517489 18);
  ([Dec 62500000000000000 18; Dec 18750000000000000 17; Dec 43750000000000000 17], Dec 52550909016517489 18);
  ([Dec 62500000000000000 18; Dec 62500000000000000 18; Dec 56250000000000000 17], Dec 52550909016517489 18);
  ([Dec 43750000000000000 17; Dec 62500000000000000 18; Dec 62500000000000000 18], Dec 52550909016517489 18);
  ([Dec 31250000000000000 17; Dec 18750000000000000 17; Dec 62500000000000000 18], Dec 52550909016517489 18);
  ([Dec 18750000000000000 17; Dec 31250000000000000 17; Dec 62500000000000000 18], Dec 52550909016517489 18);
  ([Dec 62500000000000000 18; Dec 43750000000000000 17; Dec 62500000000000000 18], Dec 52550909016517489 18);
  ([Dec 31250000000000000 17; Dec 62500000000000000 18; Dec 18750000000000000 17], Dec 52550909016517489 18);
  ([Dec 18750000000000000 17; Dec 18750000000000000 17; Dec 18750000000000000 17], Dec 52550909016517489 18);
  ([Dec 62500000000000000 18; Dec 31250000000000000 17; Dec 18750000000000000 17], Dec 52550909016517489 18);
  ([Dec 18750000000000000 17; Dec 62500000000000000 18; Dec 31250000000000000 17], Dec 52550909016517489 18);
  ([Dec 62500000000000000 18; Dec 18750000000000000 17; Dec 31250000000000000 17], Dec 52550909016517489 18);
  ([Dec 62500000000000000 18; Dec 62500000000000000 18; Dec 43750000000000000 17], Dec 52550909016517489 18);
  ([Dec 31250000000000000 17; Dec 62500000000000000 18; Dec 62500000000000000 18], Dec 52550909016517489 18);
  ([Dec 18750000000000000 17; Dec 18750000000000000 17; Dec 62500000000000000 18], Dec 52550909016517489 18);
  ([Dec 62500000000000000 18; Dec 31250000000000000 17; Dec 62500000000000000 18], Dec 52550909016517489 18);
  ([Dec 18750000000000000 17; Dec 62500000000000000 18; Dec 18750000000000000 17], Dec 52550909016517489 18);
  ([Dec 62500000000000000 18; Dec 18750000000000000 17; Dec 18750000000000000 17], Dec 52550909016517489 18);
  ([Dec 62500000000000000 18; Dec 62500000000000000 18; Dec 31250000000000000 17], Dec 52550909016517489 18);
  ([Dec 18750000000000000 17; Dec 62500000000000000 18; Dec 62500000000000000 18], Dec 52550909016517489 18);
  ([Dec 62500000000000000 18; Dec 18750000000000000 17; Dec 62500000000000000 18], Dec 52550909016517489 18);
  ([Dec 62500000000000000 18; Dec 62500000000000000 18; Dec 18750000000000000 17], Dec 52550909016517489 18);
  ([Dec 62500000000000000 18; Dec 62500000000000000 18; Dec 62500000000000000 18], Dec 52550909016517489 18);
  ([Dec 78571428571428570 17; Dec 71428571428571425 18; Dec 71428571428571425 18], Dec (-14818522527926464) 17);
  ([Dec 64285714285714290 17; Dec 21428571428571427 17; Dec 71428571428571425 18], Dec (-14818522527926464) 17);
  ([Dec 50000000000000000 17; Dec 35714285714285715 17; Dec 71428571428571425 18], Dec (-14818522527926464) 17);
  ([Dec 35714285714285715 17; Dec 50000000000000000 17; Dec 71428571428571425 18], Dec (-14818522527926464) 17);
  ([Dec 21428571428571427 17; Dec 64285714285714290 17; Dec 71428571428571425 18], Dec (-14818522527926464) 17);
  ([Dec 71428571428571425 18; Dec 78571428571428570 17; Dec 71428571428571425 18], Dec (-14818522527926464) 17);
  ([Dec 64285714285714290 17; Dec 71428571428571425 18; Dec 21428571428571427 17], Dec (-14818522527926464) 17);
  ([Dec 50000000000000000 17; Dec 21428571428571427 17; Dec 21428571428571427 17], Dec (-14818522527926464) 17);
  ([Dec 35714285714285715 17; Dec 35714285714285715 17; Dec 21428571428571427 17], Dec (-14818522527926464) 17);
  ([Dec 21428571428571427 17; Dec 50000000000000000 17; Dec 21428571428571427 17], Dec (-14818522527926464) 17);
  ([Dec 71428571428571425 18; Dec 64285714285714290 17; Dec 21428571428571427 17], Dec (-14818522527926464) 17);
  ([Dec 50000000000000000 17; Dec 71428571428571425 18; Dec 35714285714285715 17], Dec (-14818522527926464) 17);
  ([Dec 35714285714285715 17; Dec 21428571428571427 17; Dec 35714285714285715 17], Dec (-14818522527926464) 17);
  ([Dec 21428571428571427 17; Dec 35714285714285715 17; Dec 35714285714285715 17], Dec (-14818522527926464) 17);
  ([Dec 71428571428571425 18; Dec 50000000000000000 17; Dec 35714285714285715 17], Dec (-14818522527926464) 17);
  ([Dec 35714285714285715 17; Dec 71428571428571425 18; Dec 50000000000000000 17], Dec (-14818522527926464) 17);
  ([Dec 21428571428571427 17; Dec 21428571428571427 17; Dec 50000000000000000 17], Dec (-14818522527926464) 17);
  ([Dec 71428571428571425 18; Dec 35714285714285715 17; Dec 50000000000000000 17], Dec (-14818522527926464) 17);
  ([Dec 21428571428571427 17; Dec 71428571428571425 18; Dec 64285714285714290 17], Dec (-14818522527926464) 17);
  ([Dec 71428571428571425 18; Dec 21428571428571427 17; Dec 64285714285714290 17], Dec (-14818522527926464) 17);
  ([Dec 71428571428571425 18; Dec 71428571428571425 18; Dec 78571428571428570 17], Dec (-14818522527926464) 17);
  ([Dec 64285714285714290 17; Dec 71428571428571425 18; Dec 71428571428571425 18], Dec (-14818522527926464) 17);
  ([Dec 50000000000000000 17; Dec 21428571428571427 17; Dec 71428571428571425 18], Dec (-14818522527926464) 17);
  ([Dec 35714285714285715 17; Dec 35714285714285715 17; Dec 71428571428571425 18], Dec (-14818522527926464) 17);
  ([Dec 21428571428571427 17; Dec 50000000000000000 17; Dec 71428571428571425 18], Dec (-14818522527926464) 17);
  ([Dec 71428571428571425 18; Dec 64285714285714290 17; Dec 71428571428571425 18], Dec (-14818522527926464) 17);
  ([Dec 50000000000000000 17; Dec 71428571428571425 18; Dec 21428571428571427 17], Dec (-14818522527926464) 17);
  ([Dec 35714285714285715 17; Dec 21428571428571427 17; Dec 21428571428571427 17], Dec (-14818522527926464) 17);
  ([Dec 21428571428571427 17; Dec 35714285714285715 17; Dec 21428571428571427 17], Dec (-14818522527926464) 17);
  ([Dec 71428571428571425 18; Dec 50000000000000000 17; Dec 21428571428571427 17], Dec (-14818522527926464) 17);
  ([Dec 35714285714285715 17; Dec 71428571428571425 18; Dec 35714285714285715 17], Dec (-14818522527926464) 17);
  ([Dec 21428571428571427 17; Dec 21428571428571427 17; Dec 35714285714285715 17], Dec (-14818522527926464) 17);
  ([Dec 71428571428571425 18; Dec 35714285714285715 17; Dec 35714285714285715 17], Dec (-14818522527926464) 17);
  ([Dec 21428571428571427 17; Dec 71428571428571425 18; Dec 50000000000000000 17], Dec (-14818522527926464) 17);
  ([Dec 71428571428571425 18; Dec 21428571428571427 17; Dec 50000000000000000 17], Dec (-14818522527926464) 17);
  ([Dec 71428571428571425 18; Dec 71428571428571425 18; Dec 64285714285714290 17], Dec (-14818522527926464) 17);
  ([Dec 50000000000000000 17; Dec 71428571428571425 18; Dec 71428571428571425 18], Dec (-14818522527926464) 17);
  ([Dec 35714285714285715 17; Dec 21428571428571427 17; Dec 71428571428571425 18], Dec (-14818522527926464) 17);
  ([Dec 21428571428571427 17; Dec 35714285714285715 17; Dec 71428571428571425 18], Dec (-14818522527926464) 17);
  ([Dec 71428571428571425 18; Dec 50000000000000000 17; Dec 71428571428571425 18], Dec (-14818522527926464) 17);
  ([Dec 35714285714285715 17; Dec 71428571428571425 18; Dec 21428571428571427 17], Dec (-14818522527926464) 17);
  ([Dec 21428571428571427 17; Dec 21428571428571427 17; Dec 21428571428571427 17], Dec (-14818522527926464) 17);
  ([Dec 71428571428571425 18; Dec 35714285714285715 17; Dec 21428571428571427 17], Dec (-14818522527926464) 17);
  ([Dec 21428571428571427 17; Dec 71428571428571425 18; Dec 35714285714285715 17], Dec (-14818522527926464) 17);
  ([Dec 71428571428571425 18; Dec 21428571428571427 17; Dec 35714285714285715 17], Dec (-14818522527926464) 17);
  ([Dec 71428571428571425 18; Dec 71428571428571425 18; Dec 50000000000000000 17], Dec (-14818522527926464) 17);
  ([Dec 35714285714285715 17; Dec 71428571428571425 18; Dec 71428571428571425 18], Dec (-14818522527926464) 17);
  ([Dec 21428571428571427 17; Dec 21428571428571427 17; Dec 71428571428571425 18], Dec (-14818522527926464) 17);
  ([Dec 71428571428571425 18; Dec 35714285714285715 17; Dec 71428571428571425 18], Dec (-14818522527926464) 17);
  ([Dec 21428571428571427 17; Dec 71428571428571425 18; Dec 21428571428571427 17], Dec (-14818522527926464) 17);
  ([Dec 71428571428571425 18; Dec 21428571428571427 17; Dec 21428571428571427 17], Dec (-14818522527926464) 17);
  ([Dec 71428571428571425 18; Dec 71428571428571425 18; Dec 35714285714285715 17], Dec (-14818522527926464) 17);
  ([Dec 21428571428571427 17; Dec 71428571428571425 18; Dec 71428571428571425 18], Dec (-14818522527926464) 17);
  ([Dec 71428571428571425 18; Dec 21428571428571427 17; Dec 71428571428571425 18], Dec (-14818522527926464) 17);
  ([Dec 71428571428571425 18; Dec 71428571428571425 18; Dec 21428571428571427 17], Dec (-14818522527926464) 17);
  ([Dec 71428571428571425 18; Dec 71428571428571425 18; Dec 71428571428571425 18], Dec (-14818522527926464) 17);
  ([Dec 75000000000000000 17; Dec 83333333333333329 18; Dec 83333333333333329 18], Dec 14981589838732695 17);
  ([Dec 58333333333333337 17; Dec 25000000000000000 17; Dec 83333333333333329 18], Dec 14981589838732695 17);
  ([Dec 41666666666666669 17; Dec 41666666666666669 17; Dec 83333333333333329 18], Dec 14981589838732695 17);
  ([Dec 25000000000000000 17; Dec 58333333333333337 17; Dec 83333333333333329 18], Dec 14981589838732695 17);
  ([Dec 83333333333333329 18; Dec 75000000000000000 17; Dec 83333333333333329 18], Dec 14981589838732695 17);
  ([Dec 58333333333333337 17; Dec 83333333333333329 18; Dec 25000000000000000 17], Dec 14981589838732695 17);
  ([Dec 41666666666666669 17; Dec 25000000000000000 17; Dec 25000000000000000 17], Dec 14981589838732695 17);
  ([Dec 25000000000000000 17; Dec 41666666666666669 17; Dec 25000000000000000 17], Dec 14981589838732695 17);
  ([Dec 83333333333333329 18; Dec 58333333333333337 17; Dec 25000000000000000 17], Dec 14981589838732695 17);
  ([Dec 41666666666666669 17; Dec 83333333333333329 18; Dec 41666666666666669 17], Dec 14981589838732695 17);
  ([Dec 25000000000000000 17; Dec 25000000000000000 17; Dec 41666666666666669 17], Dec 14981589838732695 17);
  ([Dec 83333333333333329 18; Dec 41666666666666669 17; Dec 41666666666666669 17], Dec 14981589838732695 17);
  ([Dec 25000000000000000 17; Dec 83333333333333329 18; Dec 58333333333333337 17], Dec 14981589838732695 17);
  ([Dec 83333333333333329 18; Dec 25000000000000000 17; Dec 58333333333333337 17], Dec 14981589838732695 17);
  ([Dec 83333333333333329 18; Dec 83333333333333329 18; Dec 75000000000000000 17], Dec 14981589838732695 17);
  ([Dec 58333333333333337 17; Dec 83333333333333329 18; Dec 83333333333333329 18], Dec 14981589838732695 17);
  ([Dec 41666666666666669 17; Dec 25000000000000000 17; Dec 83333333333333329 18], Dec 14981589838732695 17);
  ([Dec 25000000000000000 17; Dec 41666666666666669 17; Dec 83333333333333329 18], Dec 14981589838732695 17);
  ([Dec 83333333333333329 18; Dec 58333333333333337 17; Dec 83333333333333329 18], Dec 14981589838732695 17);
  ([Dec 41666666666666669 17; Dec 83333333333333329 18; Dec 25000000000000000 17], Dec 14981589838732695 17);
  ([Dec 25000000000000000 17; Dec 25000000000000000 17; Dec 25000000000000000 17], Dec 14981589838732695 17);
  ([Dec 83333333333333329 18; Dec 41666666666666669 17; Dec 25000000000000000 17], Dec 14981589838732695 17);
  ([Dec 25000000000000000 17; Dec 83333333333333329 18; Dec 41666666666666669 17], Dec 14981589838732695 17);
  ([Dec 83333333333333329 18; Dec 25000000000000000 17; Dec 41666666666666669 17], Dec 14981589838732695 17);
  ([Dec 83333333333333329 18; Dec 83333333333333329 18; Dec 58333333333333337 17], Dec 14981589838732695 17);
  ([Dec 41666666666666669 17; Dec 83333333333333329 18; Dec 83333333333333329 18], Dec 14981589838732695 17);
  ([Dec 25000000000000000 17; Dec 25000000000000000 17; Dec 83333333333333329 18], Dec 14981589838732695 17);
  ([Dec 83333333333333329 18; Dec 41666666666666669 17; Dec 83333333333333329 18], Dec 14981589838732695 17);
  ([Dec 25000000000000000 17; Dec 83333333333333329 18; Dec 25000000000000000 17], Dec 14981589838732695 17);
  ([Dec 83333333333333329 18; Dec 25000000000000000 17; Dec 25000000000000000 17], Dec 14981589838732695 17);
  ([Dec 83333333333333329 18; Dec 83333333333333329 18; Dec 41666666666666669 17], Dec 14981589838732695 17);
  ([Dec 25000000000000000 17; Dec 83333333333333329 18; Dec 83333333333333329 18], Dec 14981589838732695 17);
  ([Dec 83333333333333329 18; Dec 25000000000000000 17; Dec 83333333333333329 18], Dec 14981589838732695 17);
  ([Dec 83333333333333329 18; Dec 83333333333333329 18; Dec 25000000000000000 17], Dec 14981589838732695 17);
  ([Dec 83333333333333329 18; Dec 83333333333333329 18; Dec 83333333333333329 18], Dec 14981589838732695 17);
  ([Dec 69999999999999996 17; Dec 10000000000000001 17; Dec 10000000000000001 17], Dec (-65344416653733792) 18);
  ([Dec 50000000000000000 17; Dec 29999999999999999 17; Dec 10000000000000001 17], Dec (-65344416653733792) 18);
  ([Dec 29999999999999999 17; Dec 50000000000000000 17; Dec 10000000000000001 17], Dec (-65344416653733792) 18);
  ([Dec 10000000000000001 17; Dec 69999999999999996 17; Dec 10000000000000001 17], Dec (-65344416653733792) 18);
  ([Dec 50000000000000000 17; Dec 10000000000000001 17; Dec 29999999999999999 17], Dec (-65344416653733792) 18);
  ([Dec 29999999999999999 17; Dec 29999999999999999 17; Dec 29999999999999999 17], Dec (-65344416653733792) 18);
  ([Dec 10000000000000001 17; Dec 50000000000000000 17; Dec 29999999999999999 17], Dec (-65344416653733792) 18);
  ([Dec 29999999999999999 17; Dec 10000000000000001 17; Dec 50000000000000000 17], Dec (-65344416653733792) 18);
  ([Dec 10000000000000001 17; Dec 29999999999999999 17; Dec 50000000000000000 17], Dec (-65344416653733792) 18);
  ([Dec 10000000000000001 17; Dec 10000000000000001 17; Dec 69999999999999996 17], Dec (-65344416653733792) 18);
  ([Dec 50000000000000000 17; Dec 10000000000000001 17; Dec 10000000000000001 17], Dec (-65344416653733792) 18);
  ([Dec 29999999999999999 17; Dec 29999999999999999 17; Dec 10000000000000001 17], Dec (-65344416653733792) 18);
  ([Dec 10000000000000001 17; Dec 50000000000000000 17; Dec 10000000000000001 17], Dec (-65344416653733792) 18);
  ([Dec 29999999999999999 17; Dec 10000000000000001 17; Dec 29999999999999999 17], Dec (-65344416653733792) 18);
  ([Dec 10000000000000001 17; Dec 29999999999999999 17; Dec 29999999999999999 17], Dec (-65344416653733792) 18);
  ([Dec 10000000000000001 17; Dec 10000000000000001 17; Dec 50000000000000000 17], Dec (-65344416653733792) 18);
  ([Dec 29999999999999999 17; Dec 10000000000000001 17; Dec 10000000000000001 17], Dec (-65344416653733792) 18);
  ([Dec 10000000000000001 17; Dec 29999999999999999 17; Dec 10000000000000001 17], Dec (-65344416653733792) 18);
  ([Dec 10000000000000001 17; Dec 10000000000000001 17; Dec 29999999999999999 17], Dec (-65344416653733792) 18);
  ([Dec 10000000000000001 17; Dec 10000000000000001 17; Dec 10000000000000001 17], Dec (-65344416653733792) 18);
  ([Dec 62500000000000000 17; Dec 12500000000000000 17; Dec 12500000000000000 17], Dec 11675128712165748 18);
  ([Dec 37500000000000000 17; Dec 37500000000000000 17; Dec 12500000000000000 17], Dec 11675128712165748 18);
  ([Dec 12500000000000000 17; Dec 62500000000000000 17; Dec 12500000000000000 17], Dec 11675128712165748 18);
  ([Dec 37500000000000000 17; Dec 12500000000000000 17; Dec 37500000000000000 17], Dec 11675128712165748 18);
  ([Dec 12500000000000000 17; Dec 37500000000000000 17; Dec 37500000000000000 17], Dec 11675128712165748 18);
  ([Dec 12500000000000000 17; Dec 12500000000000000 17; Dec 62500000000000000 17], Dec 11675128712165748 18);
  ([Dec 37500000000000000 17; Dec 12500000000000000 17; Dec 12500000000000000 17], Dec 11675128712165748 18);
  ([Dec 12500000000000000 17; Dec 37500000000000000 17; Dec 12500000000000000 17], Dec 11675128712165748 18);
  ([Dec 12500000000000000 17; Dec 12500000000000000 17; Dec 37500000000000000 17], Dec 11675128712165748 18);
  ([Dec 12500000000000000 17; Dec 12500000000000000 17; Dec 12500000000000000 17], Dec 11675128712165748 18);
  ([Dec 50000000000000000 17; Dec 16666666666666666 17; Dec 16666666666666666 17], Dec (-66568587662337671) 20);
  ([Dec 16666666666666666 17; Dec 50000000000000000 17; Dec 16666666666666666 17], Dec (-66568587662337671) 20);
  ([Dec 16666666666666666 17; Dec 16666666666666666 17; Dec 50000000000000000 17], Dec (-66568587662337671) 20);
  ([Dec 16666666666666666 17; Dec 16666666666666666 17; Dec 16666666666666666 17], Dec (-66568587662337671) 20);
  ([Dec 25000000000000000 17; Dec 25000000000000000 17; Dec 25000000000000000 17], Dec 62708210856358984 22)].

(** FillPointsAndWeights, order 13: Quadrature_Gauss3D_Tetrahedron.cpp:2819-3661. *)
Definition Tetrahedron_13 : rule := Rule false [
  ([Dec 81250000000000000 17; Dec 62500000000000000 18; Dec 62500000000000000 18], Dec 52550909016517489 18);
  ([Dec 68750000000000000 17; Dec 18750000000000000 17; Dec 62500000000000000 18], Dec 52550909016517489 18);
  ([Dec 56250000000000000 17; Dec 31250000000000000 17; Dec 62500000000000000 18], Dec 52550909016517489 18);
  ([Dec 43750000000000000 17; Dec 43750000000000000 17; Dec 62500000000000000 18], Dec 52550909016517489 18);
  ([Dec 31250000000000000 17; Dec 56250000000000000 17; Dec 62500000000000000 18], Dec 52550909016517489 18);
  ([Dec 18750000000000000 17; Dec 68750000000000000 17; Dec 62500000000000000 18], Dec 52550909016517489 18);
  ([Dec 62500000000000000 18; Dec 81250000000000000 17; Dec 62500000000000000 18], Dec 52550909016517489 18);
  ([Dec 68750000000000000 17; Dec 62500000000000000 18; Dec 18750000000000000 17], Dec 52550909016517489 18);
  ([Dec 56250000000000000 17; Dec 18750000000000000 17; Dec 18750000000000000 17], Dec 52550909016517489 18);
  ([Dec 43750000000000000 17; Dec 31250000000000000 17; Dec 18750000000000000 17], Dec 52550909016517489 18);
  ([Dec 31250000000000000 17; Dec 43750000000000000 17; Dec 18750000000000000 17], Dec 52550909016517489 18);
  ([Dec 18750000000000000 17; Dec 56250000000000000 17; Dec 18750000000000000 17], Dec 52550909016517489 18);
  ([Dec 62500000000000000 18; Dec 68750000000000000 17; Dec 18750000000000000 17], Dec 52550909016517489 18);
  ([Dec 56250000000000000 17; Dec 62500000000000000 18; Dec 31250000000000000 17], Dec 52550909016517489 18);
  ([Dec 43750000000000000 17; Dec 18750000000000000 17; Dec 31250000000000000 17], Dec 52550909016517489 18);
  ([Dec 31250000000000000 17; Dec 31250000000000000 17; Dec 31250000000000000 17], Dec 52550909016517489 18);
  ([Dec 18750000000000000 17; Dec 43750000000000000 17; Dec 31250000000000000 17], Dec 52550909016517489 18);
  ([Dec 62500000000000000 18; Dec 56250000000000000 17; Dec 31250000000000000 17], Dec 52550909016517489 18);
  ([Dec 43750000000000000 17; Dec 62500000000000000 18; Dec 43750000000000000 17], Dec 52550909016517489 18);
  ([Dec 31250000000000000 17; Dec 18750000000000000 17; Dec 43750000000000000 17], Dec 52550909016517489 18);
  ([Dec 18750000000000000 17; Dec 31250000000000000 17; Dec 43750000000000000 17], Dec 52550909016517489 18);
  ([Dec 62500000000000000 18; Dec 43750000000000000 17; Dec 43750000000000000 17], Dec 52550909016517489 18);
  ([Dec 31250000000000000 17; Dec 62500000000000000 18; Dec 56250000000000000 17], Dec 52550909016517489 18);
  ([Dec 18750000000000000 17; Dec 18750000000000000 17; Dec 56250000000000000 17], Dec 52550909016517489 18);
  ([Dec 62500000000000000 18; Dec 31250000000000000 17; Dec 56250000000000000 17], Dec 52550909016517489 18);
  ([Dec 18750000000000000 17; Dec 62500000000000000 18; Dec 68750000000000000 17], Dec 52550909016517489 18);
  ([Dec 62500000000000000 18; Dec 18750000000000000 17; Dec 68750000000000000 17], Dec 52550909016517489 18);
  ([Dec 62500000000000000 18; Dec 62500000000000000 18; Dec 81250000000000000 17], Dec 52550909016517489 18);
  ([Dec 68750000000000000 17; Dec 62500000000000000 18; Dec 62500000000000000 18], Dec 52550909016517489 18);
  ([Dec 56250000000000000 17; Dec 18750000000000000 17; Dec 62500000000000000 18], Dec 52550909016517489 18);
  ([Dec 43750000000000000 17; Dec 31250000000000000 17; Dec 62500000000000000 18], Dec 52550909016517489 18);
  ([Dec 31250000000000000 17; Dec 43750000000000000 17; Dec 62500000000000000 18], Dec 52550909016517489 18);
  ([Dec 18750000000000000 17; Dec 56250000000000000 17; Dec 62500000000000000 18], Dec 52550909016517489 18);
  ([Dec 62500000000000000 18; Dec 68750000000000000 17; Dec 62500000000000000 18], Dec 52550909016517489 18);
  ([Dec 56250000000000000 17; Dec 62500000000000000 18; Dec 18750000000000000 17], Dec 52550909016517489 18);
  ([Dec 43750000000000000 17; Dec 18750000000000000 17; Dec 18750000000000000 17], Dec 52550909016517489 18);
  ([Dec 31250000000000000 17; Dec 31250000000000000 17; Dec 18750000000000000 17], Dec 52550909016517489 18);
  ([Dec 18750000000000000 17; Dec 43750000000000000 17; Dec 18750000000000000 17], Dec 52550909016517489 18);
  ([Dec 62500000000000000 18; Dec 56250000000000000 17; Dec 18750000000000000 17], Dec 52550909016517489 18);
  ([Dec 43750000000000000 17; Dec 62500000000000000 18; Dec 31250000000000000 17], Dec 52550909016517489 18);
  ([Dec 31250000000000000 17; Dec 18750000000000000 17; Dec 31250000000000000 17], Dec 52550909016517489 18);
  ([Dec 18750000000000000 17; Dec 31250000000000000 17; Dec 31250000000000000 17], Dec 52550909016517489 18);
  ([Dec 62500000000000000 18; Dec 43750000000000000 17; Dec 31250000000000000 17], Dec 52550909016517489 18);
  ([Dec 31250000000000000 17; Dec 62500000000000000 18; Dec 43750000000000000 17], Dec 52550909016517489 18);
  ([Dec 18750000000000000 17; Dec 18750000000000000 17; Dec 43750000000000000 17], Dec 52550909016517489 18);
  ([Dec 62500000000000000 18; Dec 31250000000000000 17; Dec 43750000000000000 17], Dec 52550909016517489 18);
  ([Dec 18750000000000000 17; Dec 62500000000000000 18; Dec 56250000000000000 17], Dec 52550909016517489 18);
  ([Dec 62500000000000000 18; Dec 18750000000000000 17; Dec 56250000000000000 17], Dec 52550909016517489 18);
  ([Dec 62500000000000000 18; Dec 62500000000000000 18; Dec 68750000000000000 17], Dec 52550909016517489 18);
  ([Dec 56250000000000000 17; Dec 62500000000000000 18; Dec 62500000000000000 18], Dec 52550909016517489 18);
  ([Dec 43750000000000000 17; Dec 18750000000000000 17; Dec 62500000000000000 18], Dec 52550909016517489 18);
  ([Dec 31250000000000000 17; Dec 31250000000000000 17; Dec 62500000000000000 18], Dec 52550909016517489 18);
  ([Dec 18750000000000000 17; Dec 43750000000000000 17; Dec 62500000000000000 18], Dec 52550909016517489 18);
  ([Dec 62500000000000000 18; Dec 56250000000000000 17; Dec 62500000000000000 18], Dec 52550909016517489 18);
  ([Dec 43750000000000000 17; Dec 62500000000000000 18; Dec 18750000000000000 17], Dec 52550909016517489 18);
  ([Dec 31250000000000000 17; Dec 18750000000000000 17; Dec 18750000000000000 17], Dec 52550909016517489 18);
  ([Dec 18750000000000000 17; Dec 31250000000000000 17; Dec 18750000000000000 17], Dec 52550909016517489 18);
  ([Dec 62500000000000000 18; Dec 43750000000000000 17; Dec 18750000000000000 17], Dec 52550909016517489 18);
  ([Dec 31250000000000000 17; Dec 62500000000000000 18; Dec 31250000000000000 17], Dec 52550909016517489 18);
  ([Dec 18750000000000000 17; Dec 18750000000000000 17; Dec 31250000000000000 17], Dec 52550909016517489 18);
  ([Dec 62500000000000000 18; Dec 31250000000000000 17; Dec 31250000000000000 17], Dec 52550909016517489 18);
  ([Dec 18750000000000000 17; Dec 62500000000000000 18; Dec 43750000000000000 17], Dec 52550909016517489 18);
  ([Dec 62500000000000000 18; Dec 18750000000000000 17; Dec 43750000000000000 17], Dec 52550909016517489 18);
  ([Dec 62500000000000000 18; Dec 62500000000000000 18; Dec 56250000000000000 17], Dec 52550909016517489 18);
  ([Dec 43750000000000000 17; Dec 62500000000000000 18; Dec 62500000000000000 18], Dec 52550909016517489 18);
  ([Dec 31250000000000000 17; Dec 18750000000000000 17; Dec 62500000000000000 18], Dec 52550909016517489 18);
  ([Dec 18750000000000000 17; Dec 31250000000000000 17; Dec 62500000000000000 18], Dec 52550909016517489 18);
  ([Dec 62500000000000000 18; Dec 43750000000000000 17; Dec 62500000000000000 18], Dec 52550909016517489 18);
  ([Dec 31250000000000000 17; Dec 62500000000000000 18; Dec 18750000000000000 17], Dec 52550909016517489 18);
  ([Dec 18750000000000000 17; Dec 18750000000000000 17; Dec 18750000000000000 17], Dec 52550909016517489 18);
  ([Dec 62500000000000000 18; Dec 31250000000000000 17; Dec 18750000000000000 17], Dec 52550909016517489 18);
  ([Dec 18750000000000000 17; Dec 62500000000000000 18; Dec 31250000000000000 17], Dec 52550909016517489 18);
  ([Dec 62500000000000000 18; Dec 18750000000000000 17; Dec 31250000000000000 17], Dec 52550909016517489 18);
  ([Dec 62500000000000000 18; Dec 62500000000000000 18; Dec 43750000000000000 17], Dec 52550909016517489 18);
  ([Dec 31250000000000000 17; Dec 62500000000000000 18; Dec 62500000000000000 18], Dec 52550909016517489 18);
  ([Dec 18750000000000000 17; Dec 18750000000000000 17; Dec 62500000000000000 18], Dec 52550909016517489 18);
  ([Dec 62500000000000000 18; Dec 31250000000000000 17; Dec 62500000000000000 18], Dec 52550909016517489 18);
  ([Dec 18750000000000000 17; Dec 62500000000000000 18; Dec 18750000000000000 17], Dec 52550909016517489 18);
  ([Dec 62500000000000000 18; Dec 18750000000000000 17; Dec 18750000000000000 17], Dec 52550909016517489 18);
  ([Dec 62500000000000000 18; Dec 62500000000000000 18; Dec 31250000000000000 17], Dec 52550909016517489 18);
  ([Dec 18750000000000000 17; Dec 62500000000000000 18; Dec 62500000000000000 18], Dec 52550909016517489 18);
  ([Dec 62500000000000000 18; Dec 18750000000000000 17; Dec 62500000000000000 18], Dec 52550909016517489 18);
  ([Dec 62500000000000000 18; Dec 62500000000000000 18; Dec 18750000000000000 17], Dec 52550909016517489 18);
  ([Dec 62500000000000000 18; Dec 62500000000000000 18; Dec 62500000000000000 18], Dec 52550909016517489 18);
  ([Dec 78571428571428570 17; Dec 71428571428571425 18; Dec 71428571428571425 18], Dec (-14818522527926464) 17);
  ([Dec 64285714285714290 17; Dec 21428571428571427 17; Dec 71428571428571425 18], Dec (-14818522527926464) 17);
  ([Dec 50000000000000000 17; Dec 35714285714285715 17; Dec 71428571428571425 18], Dec (-14818522527926464) 17);
  ([Dec 35714285714285715 17; Dec 50000000000000000 17; Dec 71428571428571425 18], Dec (-14818522527926464) 17);
  ([Dec 21428571428571427 17; Dec 64285714285714290 17; Dec 71428571428571425 18], Dec (-14818522527926464) 17);
  ([Dec 71428571428571425 18; Dec 78571428571428570 17; Dec 71428571428571425 18], Dec (-14818522527926464) 17);
  ([Dec 64285714285714290 17; Dec 71428571428571425 18; Dec 21428571428571427 17], Dec (-14818522527926464) 17);
  ([Dec 50000000000000000 17; Dec 21428571428571427 17; Dec 21428571428571427 17], Dec (-14818522527926464) 17);
  ([Dec 35714285714285715 17; Dec 35714285714285715 17; Dec 21428571428571427 17], Dec (-14818522527926464) 17);
  ([Dec 21428571428571427 17; Dec 50000000000000000 17; Dec 21428571428571427 17], Dec (-14818522527926464) 17);
  ([Dec 71428571428571425 18; Dec 64285714285714290 17; Dec 21428571428571427 17], Dec (-14818522527926464) 17);
  ([Dec 50000000000000000 17; Dec 71428571428571425 18; Dec 35714285714285715 17], Dec (-14818522527926464) 17);
  ([Dec 35714285714285715 17; Dec 21428571428571427 17; Dec 35714285714285715 17], Dec (-14818522527926464) 17);
  ([Dec 21428571428571427 17; Dec 35714285714285715 17; Dec 35714285714285715 17], Dec (-14818522527926464) 17);
  ([Dec 71428571428571425 18; Dec 50000000000000000 17; Dec 35714285714285715 17], Dec (-14818522527926464) 17);
  ([Dec 35714285714285715 17; Dec 71428571428571425 18; Dec 50000000000000000 17], Dec (-14818522527926464) 17);
  ([Dec 21428571428571427 17; Dec 21428571428571427 17; Dec 50000000000000000 17], Dec (-14818522527926464) 17);
  ([Dec 71428571428571425 18; Dec 35714285714285715 17; Dec 50000000000000000 17], Dec (-14818522527926464) 17);
  ([Dec 21428571428571427 17; Dec 71428571428571425 18; Dec 64285714285714290 17], Dec (-14818522527926464) 17);
  ([Dec 71428571428571425 18; Dec 21428571428571427 17; Dec 64285714285714290 17], Dec (-14818522527926464) 17);
  ([Dec 71428571428571425 18; Dec 71428571428571425 18; Dec 78571428571428570 17], Dec (-14818522527926464) 17);
  ([Dec 64285714285714290 17; Dec 71428571428571425 18; Dec 71428571428571425 18], Dec (-14818522527926464) 17);
  ([Dec 50000000000000000 17; Dec 21428571428571427 17; Dec 71428571428571425 18], Dec (-14818522527926464) 17);
  ([Dec 35714285714285715 17; Dec 35714285714285715 17; Dec 71428571428571425 18], Dec (-14818522527926464) 17);
  ([Dec 21428571428571427 17; Dec 50000000000000000 17; Dec 71428571428571425 18], Dec (-14818522527926464) 17);
  ([Dec 71428571428571425 18; Dec 64285714285714290 17; Dec 71428571428571425 18], Dec (-14818522527926464) 17);
  ([Dec 50000000000000000 17; Dec 71428571428571425 18; Dec 21428571428571427 17], Dec (-14818522527926464) 17);
  ([Dec 35714285714285715 17; Dec 21428571428571427 17; Dec 21428571428571427 17], Dec (-14818522527926464) 17);
  ([Dec 21428571428571427 17; Dec 35714285714285715 17; Dec 21428571428571427 17], Dec (-14818522527926464) 17);
  ([Dec 71428571428571425 18; Dec 50000000000000000 17; Dec 21428571428571427 17], Dec (-14818522527926464) 17);
  ([Dec 35714285714285715 17; Dec 71428571428571425 18; Dec 35714285714285715 17], Dec (-14818522527926464) 17);
  ([Dec 21428571428571427 17; Dec 21428571428571427 17; Dec 35714285714285715 17], Dec (-14818522527926464) 17);
  ([Dec 71428571428571425 18; Dec 35714285714285715 17; Dec 35714285714285715 17], Dec (-14818522527926464) 17);
  ([Dec 21428571428571427 17; Dec 71428571428571425 18; Dec 50000000000000000 17], Dec (-14818522527926464) 17);
  ([Dec 71428571428571425 18; Dec 21428571428571427 17; Dec 50000000000000000 17], Dec (-14818522527926464) 17);
  ([Dec 71428571428571425 18; Dec 71428571428571425 18; Dec 64285714285714290 17], Dec (-14818522527926464) 17);
  ([Dec 50000000000000000 17; Dec 71428571428571425 18; Dec 71428571428571425 18], Dec (-14818522527926464) 17);
  ([Dec 35714285714285715 17; Dec 21428571428571427 17; Dec 71428571428571425 18], Dec (-14818522527926464) 17);
  ([Dec 21428571428571427 17; Dec 35714285714285715 17; Dec 71428571428571425 18], Dec (-14818522527926464) 17);
  ([Dec 71428571428571425 18; Dec 50000000000000000 17; Dec 71428571428571425 18], Dec (-14818522527926464) 17);
  ([Dec 35714285714285715 17; Dec 71428571428571425 18; Dec 21428571428571427 17], Dec (-14818522527926464) 17);
  ([Dec 21428571428571427 17; Dec 21428571428571427 17; Dec 21428571428571427 17], Dec (-14818522527926464) 17);
  ([Dec 71428571428571425 18; Dec 35714285714285715 17; Dec 21428571428571427 17], Dec (-14818522527926464) 17);
  ([Dec 21428571428571427 17; Dec 71428571428571425 18; Dec 35714285714285715 17], Dec (-14818522527926464) 17);
  ([Dec 71428571428571425 18; Dec 21428571428571427 17; Dec 35714285714285715 17], Dec (-14818522527926464) 17);
  ([Dec 71428571428571425 18; Dec 71428571428571425 18; Dec 50000000000000000 17], Dec (-14818522527926464) 17);
  ([Dec 35714285714285715 17; Dec 71428571428571425 18; Dec 71428571428571425 18], Dec (-14818522527926464) 17);
  ([Dec 21428571428571427 17; Dec 21428571428571427 17; Dec 71428571428571425 18], Dec (-14818522527926464) 17);
  ([Dec 71428571428571425 18; Dec 35714285714285715 17; Dec 71428571428571425 18], Dec (-14818522527926464) 17);
  ([Dec 21428571428571427 17; Dec 71428571428571425 18; Dec 21428571428571427 17], Dec (-14818522527926464) 17);
  ([Dec 71428571428571425 18; Dec 21428571428571427 17; Dec 21428571428571427 17], Dec (-14818522527926464) 17);
  ([Dec 71428571428571425 18; Dec 71428571428571425 18; Dec 35714285714285715 17], Dec (-14818522527926464) 17);
  ([Dec 21428571428571427 17; Dec 71428571428571425 18; Dec 71428571428571425 18], Dec (-14818522527926464) 17);
  ([Dec 71428571428571425 18; Dec 21428571428571427 17; Dec 71428571428571425 18], Dec (-14818522527926464) 17);
  ([Dec 71428571428571425 18; Dec 71428571428571425 18; Dec 21428571428571427 17], Dec (-14818522527926464) 17);
  ([Dec 71428571428571425 18; Dec 71428571428571425 18; Dec 71428571428571425 18], Dec (-14818522527926464) 17);
  ([Dec 75000000000000000 17; Dec 83333333333333329 18; Dec 83333333333333329 18], Dec 14981589838732695 17);
  ([Dec 58333333333333337 17; Dec 25000000000000000 17; Dec 83333333333333329 18], Dec 14981589838732695 17);
  ([Dec 41666666666666669 17; Dec 41666666666666669 17; Dec 83333333333333329 18], Dec 14981589838732695 17);
  ([Dec 25000000000000000 17; Dec 58333333333333337 17; Dec 83333333333333329 18], Dec 14981589838732695 17);
  ([Dec 83333333333333329 18; Dec 75000000000000000 17; Dec 83333333333333329 18], Dec 14981589838732695 17);
  ([Dec 58333333333333337 17; Dec 83333333333333329 18; Dec 25000000000000000 17], Dec 14981589838732695 17);
  ([Dec 41666666666666669 17; Dec 25000000000000000 17; Dec 25000000000000000 17], Dec 14981589838732695 17);
  ([Dec 25000000000000000 17; Dec 41666666666666669 17; Dec 25000000000000000 17], Dec 14981589838732695 17);
  ([Dec 83333333333333329 18; Dec 58333333333333337 17; Dec 25000000000000000 17], Dec 14981589838732695 17);
  ([Dec 41666666666666669 17; Dec 83333333333333329 18; Dec 41666666666666669 17], Dec 14981589838732695 17);
  ([Dec 25000000000000000 17; Dec 25000000000000000 17; Dec 41666666666666669 17], Dec 14981589838732695 17);
  ([Dec 83333333333333329 18; Dec 41666666666666669 17; Dec 41666666666666669 17], Dec 14981589838732695 17);
  ([Dec 25000000000000000 17; Dec 83333333333333329 18; Dec 58333333333333337 17], Dec 14981589838732695 17);
  ([Dec 83333333333333329 18; Dec 25000000000000000 17; Dec 58333333333333337 17], Dec 14981589838732695 17);
  ([Dec 83333333333333329 18; Dec 83333333333333329 18; Dec 75000000000000000 17], Dec 14981589838732695 17);
  ([Dec 58333333333333337 17; Dec 83333333333333329 18; Dec 83333333333333329 18], Dec 14981589838732695 17);
  ([Dec 41666666666666669 17; Dec 25000000000000000 17; Dec 83333333333333329 18], Dec 14981589838732695 17);
  ([Dec 25000000000000000 17; Dec 41666666666666669 17; Dec 83333333333333329 18], Dec 14981589838732695 17);
  ([Dec 83333333333333329 18; Dec 58333333333333337 17; Dec 83333333333333329 18], Dec 14981589838732695 17);
  ([Dec 41666666666666669 17; Dec 83333333333333329 18; Dec 25000000000000000 17], Dec 14981589838732695 17);
  ([Dec 25000000000000000 17; Dec 25000000000000000 17; Dec 25000000000000000 17], Dec 14981589838732695 17);
  ([Dec 83333333333333329 18; Dec 41666666666666669 17; Dec 25000000000000000 17], Dec 14981589838732695 17);
  ([Dec 25000000000000000 17; Dec 83333333333333329 18; Dec 41666666666666669 17], Dec 14981589838732695 17);
  ([Dec 83333333333333329 18; Dec 25000000000000000 17; Dec 41666666666666669 17], Dec 14981589838732695 17);
  ([Dec 83333333333333329 18; Dec 83333333333333329 18; Dec 58333333333333337 17], Dec 14981589838732695 17);
  ([Dec 41666666666666669 17; Dec 83333333333333329 18; Dec 83333333333333329 18], Dec 14981589838732695 17);
  ([Dec 25000000000000000 17; Dec 25000000000000000 17; Dec 83333333333333329 18], Dec 14981589838732695 17);
  ([Dec 83333333333333329 18; Dec 41666666666666669 17; Dec 83333333333333329 18], Dec 14981589838732695 17);
  ([Dec 25000000000000000 17; Dec 83333333333333329 18; Dec 25000000000000000 17], Dec 14981589838732695 17);
  ([Dec 83333333333333329 18; Dec 25000000000000000 17; Dec 25000000000000000 17], Dec 14981589838732695 17);
  ([Dec 83333333333333329 18; Dec 83333333333333329 18; Dec 41666666666666669 17], Dec 14981589838732695 17);
  ([Dec 25000000000000000 17; Dec 83333333333333329 18; Dec 83333333333333329 18], Dec 14981589838732695 17);
  ([Dec 83333333333333329 18; Dec 25000000000000000 17; Dec 83333333333333329 18], Dec 14981589838732695 17);
  ([Dec 83333333333333329 18; Dec 83333333333333329 18; Dec 25000000000000000 17], Dec 14981589838732695 17);
  ([Dec 83333333333333329 18; Dec 83333333333333329 18; Dec 83333333333333329 18], Dec 14981589838732695 17);
  ([Dec 69999999999999996 17; Dec 10000000000000001 17; Dec 10000000000000001 17], Dec (-65344416653733792) 18);
  ([Dec 50000000000000000 17; Dec 29999999999999999 17; Dec 10000000000000001 17], Dec (-65344416653733792) 18);
  ([Dec 29999999999999999 17; Dec 50000000000000000 17; Dec 10000000000000001 17], Dec (-65344416653733792) 18);
  ([Dec 10000000000000001 17; Dec 69999999999999996 17; Dec 10000000000000001 17], Dec (-65344416653733792) 18);
  ([Dec 50000000000000000 17; Dec 10000000000000001 17; Dec 29999999999999999 17], Dec (-65344416653733792) 18);
  ([Dec 29999999999999999 17; Dec 29999999999999999 17; Dec 29999999999999999 17], Dec (-65344416653733792) 18);
  ([Dec 10000000000000001 17; Dec 50000000000000000 17; Dec 29999999999999999 17], Dec (-65344416653733792) 18);
  ([Dec 29999999999999999 17; Dec 10000000000000001 17; Dec 50000000000000000 17], Dec (-65344416653733792) 18);
  ([Dec 10000000000000001 17; Dec 29999999999999999 17; Dec 50000000000000000 17], Dec (-65344416653733792) 18);
  ([Dec 10000000000000001 17; Dec 10000000000000001 17; Dec 69999999999999996 17], Dec (-65344416653733792) 18);
  ([Dec 50000000000000000 17; Dec 10000000000000001 17; Dec 10000000000000001 17], Dec (-65344416653733792) 18);
  ([Dec 29999999999999999 17; Dec 29999999999999999 17; Dec 10000000000000001 17], Dec (-65344416653733792) 18);
  ([Dec 10000000000000001 17; Dec 50000000000000000 17; Dec 10000000000000001 17], Dec (-65344416653733792) 18);
  ([Dec 29999999999999999 17; Dec 10000000000000001 17; Dec 29999999999999999 17], Dec (-65344416653733792) 18);
  ([Dec 10000000000000001 17; Dec 29999999999999999 17; Dec 29999999999999999 17], Dec (-65344416653733792) 18);
  ([Dec 10000000000000001 17; Dec 10000000000000001 17; Dec 50000000000000000 17], Dec (-65344416653733792) 18);
  ([Dec 29999999999999999 17; Dec 10000000000000001 17; Dec 10000000000000001 17], Dec (-65344416653733792) 18);
  ([Dec 10000000000000001 17; Dec 29999999999999999 17; Dec 10000000000000001 17], Dec (-65344416653733792) 18);
  ([Dec 10000000000000001 17; Dec 10000000000000001 17; Dec 29999999999999999 17], Dec (-65344416653733792) 18);
  ([Dec 10000000000000001 17; Dec 10000000000000001 17; Dec 10000000000000001 17], Dec (-65344416653733792) 18);
  ([Dec 62500000000000000 17; Dec 12500000000000000 17; Dec 12500000000000000 17], Dec 11675128712165748 18);
  ([Dec 37500000000000000 17; Dec 37500000000000000 17; Dec 12500000000000000 17], Dec 11675128712165748 18);
  ([Dec 12500000000000000 17; Dec 62500000000000000 17; Dec 12500000000000000 17], Dec 11675128712165748 18);
  ([Dec 37500000000000000 17; Dec 12500000000000000 17; Dec 37500000000000000 17], Dec 11675128712165748 18);
  ([Dec 12500000000000000 17; Dec 37500000000000000 17; Dec 37500000000000000 17], Dec 11675128712165748 18);
  ([Dec 12500000000000000 17; Dec 12500000000000000 17; Dec 62500000000000000 17], Dec 11675128712165748 18);
  ([Dec 37500000000000000 17; Dec 12500000000000000 17; Dec 12500000000000000 17], Dec 11675128712165748 18);
  ([Dec 12500000000000000 17; Dec 37500000000000000 17; Dec 12500000000000000 17], Dec 11675128712165748 18);
  ([Dec 12500000000000000 17; Dec 12500000000000000 17; Dec 37500000000000000 17], Dec 11675128712165748 18);
  ([Dec 12500000000000000 17; Dec 12500000000000000 17; Dec 12500000000000000 17], Dec 11675128712165748 18);
  ([Dec 50000000000000000 17; Dec 16666666666666666 17; Dec 16666666666666666 17], Dec (-66568587662337671) 20);
  ([Dec 16666666666666666 17; Dec 50000000000000000 17; Dec 16666666666666666 17], Dec (-66568587662337671) 20);
  ([Dec 16666666666666666 17; Dec 16666666666666666 17; Dec 50000000000000000 17], Dec (-66568587662337671) 20);
  ([Dec 16666666666666666 17; Dec 16666666666666666 17; Dec 16666666666666666 17], Dec (-66568587662337671) 20);
  ([Dec 25000000000000000 17; Dec 25000000000000000 17; Dec 25000000000000000 17], Dec 62708210856358984 22)].

(** FillPointsAndWeights, order 14: Quadrature_Gauss3D_Tetrahedron.cpp:3664-4986. *)
Definition Tetrahedron_14 : rule := Rule false [
  ([Dec 83333333333333337 17; Dec 55555555555555552 18; Dec 55555555555555552 18], Dec 64317124103657017 18);
  ([Dec 72222222222222221 17; Dec 16666666666666666 17; Dec 55555555555555552 18], Dec 64317124103657017 18);
  ([Dec 61111111111111116 17; Dec 27777777777777779 17; Dec 55555555555555552 18], Dec 64317124103657017 18);
  ([Dec 50000000000000000 17; Dec 38888888888888890 17; Dec 55555555555555552 18], Dec 64317124103657017 18);
  ([Dec 38888888888888890 17; Dec 50000000000000000 17; Dec 55555555555555552 18], Dec 64317124103657017 18);
  ([Dec 27777777777777779 17; Dec 61111111111111116 17; Dec 55555555555555552 18], Dec 64317124103657017 18);
  ([Dec 16666666666666666 17; Dec 72222222222222221 17; Dec 55555555555555552 18], Dec 64317124103657017 18);
  ([Dec 55555555555555552 18; Dec 83333333333333337 17; Dec 55555555555555552 18], Dec 64317124103657017 18);
  ([Dec 72222222222222221 17; Dec 55555555555555552 18; Dec 16666666666666666 17], Dec 64317124103657017 18);
  ([Dec 61111111111111116 17; Dec 16666666666666666 17; Dec 16666666666666666 17], Dec 64317124103657017 18);
  ([Dec 50000000000000000 17; Dec 27777777777777779 17; Dec 16666666666666666 17], Dec 64317124103657017 18);
  ([Dec 38888888888888890 17; Dec 38888888888888890 17; Dec 16666666666666666 17], Dec 64317124103657017 18);
  ([Dec 27777777777777779 17; Dec 50000000000000000 17; Dec 16666666666666666 17], Dec 64317124103657017 18);
  ([Dec 16666666666666666 17; Dec 61111111111111116 17; Dec 16666666666666666 17], Dec 64317124103657017 18);
  ([Dec 55555555555555552 18; Dec 72222222222222221 17; Dec 16666666666666666 17], Dec 64317124103657017 18);
  ([Dec 61111111111111116 17; Dec 55555555555555552 18; Dec 27777777777777779 17], Dec 64317124103657017 18);
  ([Dec 50000000000000000 17; Dec 16666666666666666 17; Dec 27777777777777779 17], Dec 64317124103657017 18);
  ([Dec 38888888888888890 17; Dec 27777777777777779 17; Dec 27777777777777779 17], Dec 64317124103657017 18);
  ([Dec 27777777777777779 17; Dec 38888888888888890 17; Dec 27777777777777779 17], Dec 64317124103657017 18);
  ([Dec 16666666666666666 17; Dec 50000000000000000 17; Dec 27777777777777779 17], Dec 64317124103657017 18);
  ([Dec 55555555555555552 18; Dec 61111111111111116 17; Dec 27777777777777779 17], Dec 64317124103657017 18);
  ([Dec 50000000000000000 17; Dec 55555555555555552 18; Dec 38888888888888890 17], Dec 64317124103657017 18);
  ([Dec 38888888888888890 17; Dec 16666666666666666 17; Dec 38888888888888890 17], Dec 64317124103657017 18);
  ([Dec 27777777777777779 17; Dec 27777777777777779 17; Dec 38888888888888890 17], Dec 64317124103657017 18);
  ([Dec 16666666666666666 17; Dec 38888888888888890 17; Dec 38888888888888890 17], Dec 64317124103657017 18);
  ([Dec 55555555555555552 18; Dec 50000000000000000 17; Dec 38888888888888890 17], Dec 64317124103657017 18);
  ([Dec 38888888888888890 17; Dec 55555555555555552 18; Dec 50000000000000000 17], Dec 64317124103657017 18);
  ([Dec 27777777777777779 17; Dec 16666666666666666 17; Dec 50000000000000000 17], Dec 64317124103657017 18);
  ([Dec 16666666666666666 17; Dec 27777777777777779 17; Dec 50000000000000000 17], Dec 64317124103657017 18);
  ([Dec 55555555555555552 18; Dec 38888888888888890 17; Dec 50000000000000000 17], Dec 64317124103657017 18);
  ([Dec 27777777777777779 17; Dec 55555555555555552 18; Dec 61111111111111116 17], Dec 64317124103657017 18);
  ([Dec 16666666666666666 17; Dec 16666666666666666 17; Dec 61111111111111116 17], Dec 64317124103657017 18);
  ([Dec 55555555555555552 18; Dec 27777777777777779 17; Dec 61111111111111116 17], Dec 64317124103657017 18);
  ([Dec 16666666666666666 17; Dec 55555555555555552 18; Dec 72222222222222221 17], Dec 64317124103657017 18);
  ([Dec 55555555555555552 18; Dec 16666666666666666 17; Dec 72222222222222221 17], Dec 64317124103657017 18);
  ([Dec 55555555555555552 18; Dec 55555555555555552 18; Dec 83333333333333337 17], Dec 64317124103657017 18);
  ([Dec 72222222222222221 17; Dec 55555555555555552 18; Dec 55555555555555552 18], Dec 64317124103657017 18);
  ([Dec 61111111111111116 17; Dec 16666666666666666 17; Dec 55555555555555552 18], Dec 64317124103657017 18);
  ([Dec 50000000000000000 17; Dec 27777777777777779 17; Dec 55555555555555552 18], Dec 64317124103657017 18);
  ([Dec 38888888888888890 17; Dec 38888888888888890 17; Dec 55555555555555552 18], Dec 64317124103657017 18);
  ([Dec 27777777777777779 17; Dec 50000000000000000 17; Dec 55555555555555552 18], Dec 64317124103657017 18);
  ([Dec 16666666666666666 17; Dec 61111111111111116 17; Dec 55555555555555552 18], Dec 64317124103657017 18);
  ([Dec 55555555555555552 18; Dec 72222222222222221 17; Dec 55555555555555552 18], Dec 64317124103657017 18);
  ([Dec 61111111111111116 17; Dec 55555555555555552 18; Dec 16666666666666666 17], Dec 64317124103657017 18);
  ([Dec 50000000000000000 17; Dec 16666666666666666 17; Dec 16666666666666666 17], Dec 64317124103657017 18);
  ([Dec 38888888888888890 17; Dec 27777777777777779 17; Dec 16666666666666666 17], Dec 64317124103657017 18);
  ([Dec 27777777777777779 17; Dec 38888888888888890 17; Dec 16666666666666666 17], Dec 64317124103657017 18);
  ([Dec 16666666666666666 17; Dec 50000000000000000 17; Dec 16666666666666666 17], Dec 64317124103657017 18);
  ([Dec 55555555555555552 18; Dec 61111111111111116 17; Dec 16666666666666666 17], Dec 64317124103657017 18);
  ([Dec 50000000000000000 17; Dec 55555555555555552 18; Dec 27777777777777779 17], Dec 64317124103657017 18);
  ([Dec 38888888888888890 17; Dec 16666666666666666 17; Dec 27777777777777779 17], Dec 64317124103657017 18);
  ([Dec 27777777777777779 17; Dec 27777777777777779 17; Dec 27777777777777779 17], Dec 64317124103657017 18);
  ([Dec 16666666666666666 17; Dec 38888888888888890 17; Dec 27777777777777779 17], Dec 64317124103657017 18);
  ([Dec 55555555555555552 18; Dec 50000000000000000 17; Dec 27777777777777779 17], Dec 64317124103657017 18);
  ([Dec 38888888888888890 17; Dec 55555555555555552 18; Dec 38888888888888890 17], Dec 64317124103657017 18);
  ([Dec 27777777777777779 17; Dec 16666666666666666 17; Dec 38888888888888890 17], Dec 64317124103657017 18);
  ([Dec 16666666666666666 17; Dec 27777777777777779 17; Dec 38888888888888890 17], Dec 64317124103657017 18);
  ([Dec 55555555555555552 18; Dec 38888888888888890 17; Dec 38888888888888890 17], Dec 64317124103657017 18);
  ([Dec 27777777777777779 17; Dec 55555555555555552 18; Dec 50000000000000000 17], Dec 64317124103657017 18);
  ([Dec 16666666666666666 17; Dec 16666666666666666 17; Dec 50000000000000000 17], Dec 64317124103657017 18);
  ([Dec 55555555555555552 18; Dec 27777777777777779 17; Dec 50000000000000000 17], Dec 64317124103657017 18);
  ([Dec 16666666666666666 17; Dec 55555555555555552 18; Dec 61111111111111116 17], Dec 64317124103657017 18);
  ([Dec 55555555555555552 18; Dec 16666666666666666 17; Dec 61111111111111116 17], Dec 64317124103657017 18);
  ([Dec 55555555555555552 18; Dec 55555555555555552 18; Dec 72222222222222221 17], Dec 64317124103657017 18);
  ([Dec 61111111111111116 17; Dec 55555555555555552 18; Dec 55555555555555552 18], Dec 64317124103657017 18);
  ([Dec 50000000000000000 17; Dec 16666666666666666 17; Dec 55555555555555552 18], Dec 64317124103657017 18);
  ([Dec 38888888888888890 17; Dec 27777777777777779 17; Dec 55555555555555552 18], Dec 64317124103657017 18);
  ([Dec 27777777777777779 17; Dec 38888888888888890 17; Dec 55555555555555552 18], Dec 64317124103657017 18);
  ([Dec 16666666666666666 17; Dec 50000000000000000 17; Dec 55555555555555552 18], Dec 64317124103657017 18);
  ([Dec 55555555555555552 18; Dec 61111111111111116 17; Dec 55555555555555552 18], Dec 64317124103657017 18);
  ([Dec 50000000000000000 17; Dec 55555555555555552 18; Dec 16666666666666666 17], Dec 64317124103657017 18);
  ([Dec 38888888888888890 17; Dec 16666666666666666 17; Dec 16666666666666666 17], Dec 64317124103657017 18);
  ([Dec 27777777777777779 17; Dec 27777777777777779 17; Dec 16666666666666666 17], Dec 64317124103657017 18);
  ([Dec 16666666666666666 17; Dec 38888888888888890 17; Dec 16666666666666666 17], Dec 64317124103657017 18);
  ([Dec 55555555555555552 18; Dec 50000000000000000 17; Dec 16666666666666666 17], Dec 64317124103657017 18);
  ([Dec 38888888888888890 17; Dec 55555555555555552 18; Dec 27777777777777779 17], Dec 64317124103657017 18);
  ([Dec 27777777777777779 17; Dec 16666666666666666 17; Dec 27777777777777779 17], Dec 64317124103657017 18);
  ([Dec 16666666666666666 17; Dec 27777777777777779 17; Dec 27777777777777779 17], Dec 64317124103657017 18);
  ([Dec 55555555555555552 18; Dec 38888888888888890 17; Dec 27777777777777779 17], Dec 64317124103657017 18);
  ([Dec 27777777777777779 17; Dec 55555555555555552 18; Dec 38888888888888890 17], Dec 64317124103657017 18);
  ([Dec 16666666666666666 17; Dec 16666666666666666 17; Dec 38888888888888890 17], Dec 64317124103657017 18);
  ([Dec 55555555555555552 18; Dec 27777777777777779 17; Dec 38888888888888890 17], Dec 64317124103657017 18);
  ([Dec 16666666666666666 17; Dec 55555555555555552 18; Dec 50000000000000000 17], Dec 64317124103657017 18);
  ([Dec 55555555555555552 18; Dec 16666666666666666 17; Dec 50000000000000000 17], Dec 64317124103657017 18);
  ([Dec 55555555555555552 18; Dec 55555555555555552 18; Dec 61111111111111116 17], Dec 64317124103657017 18);
  ([Dec 50000000000000000 17; Dec 55555555555555552 18; Dec 55555555555555552 18], Dec 64317124103657017 18);
  ([Dec 38888888888888890 17; Dec 16666666666666666 17; Dec 55555555555555552 18], Dec 64317124103657017 18);
  ([Dec 27777777777777779 17; Dec 27777777777777779 17; Dec 55555555555555552 18], Dec 64317124103657017 18);
  ([Dec 16666666666666666 17; Dec 38888888888888890 17; Dec 55555555555555552 18], Dec 64317124103657017 18);
  ([Dec 55555555555555552 18; Dec 50000000000000000 17; Dec 55555555555555552 18], Dec 64317124103657017 18);
  ([Dec 38888888888888890 17; Dec 55555555555555552 18; Dec 16666666666666666 17], Dec 64317124103657017 18);
  ([Dec 27777777777777779 17; Dec 16666666666666666 17; Dec 16666666666666666 17], Dec 64317124103657017 18);
  ([Dec 16666666666666666 17; Dec 27777777777777779 17; Dec 16666666666666666 17], Dec 64317124103657017 18);
  ([Dec 55555555555555552 18; Dec 38888888888888890 17; Dec 16666666666666666 17], Dec 64317124103657017 18);
  ([Dec 27777777777777779 17; Dec 55555555555555552 18; Dec 27777777777777779 17], Dec 64317124103657017 18);
  ([Dec 16666666666666666 17; Dec 16666666666666666 17; Dec 27777777777777779 17], Dec 64317124103657017 18);
  ([Dec 55555555555555552 18; Dec 27777777777777779 17; Dec 27777777777777779 17], Dec 64317124103657017 18);
  ([Dec 16666666666666666 17; Dec 55555555555555552 18; Dec 38888888888888890 17], Dec 64317124103657017 18);
  ([Dec 55555555555555552 18; Dec 16666666666666666 17; Dec 38888888888888890 17], Dec 64317124103657017 18);
  ([Dec 55555555555555552 18; Dec 55555555555555552 18; Dec 50000000000000000 17], Dec 64317124103657017 18);
  ([Dec 38888888888888890 17; Dec 55555555555555552 18; Dec 55555555555555552 18], Dec 64317124103657017 18);
  ([Dec 27777777777777779 17; Dec 16666666666666666 17; Dec 55555555555555552 18], Dec 64317124103657017 18);
  ([Dec 16666666666666666 17; Dec 27777777777777779 17; Dec 55555555555555552 18], Dec 64317124103657017 18);
  ([Dec 55555555555555552 18; Dec 38888888888888890 17; Dec 55555555555555552 18], Dec 64317124103657017 18);
  ([Dec 27777777777777779 17; Dec 55555555555555552 18; Dec 16666666666666666 17], Dec 64317124103657017 18);
  ([Dec 16666666666666666 17; Dec 16666666666666666 17; Dec 16666666666666666 17], Dec 64317124103657017 18);
  ([Dec 55555555555555552 18; Dec 27777777777777779 17; Dec 16666666666666666 17], Dec 64317124103657017 18);
  ([Dec 16666666666666666 17; Dec 55555555555555552 18; Dec 27777777777777779 17], Dec 64317124103657017 18);
  ([Dec 55555555555555552 18; Dec 16666666666666666 17; Dec 27777777777777779 17], Dec 64317124103657017 18);
  ([Dec 55555555555555552 18; Dec 55555555555555552 18; Dec 38888888888888890 17], Dec 64317124103657017 18);
  ([Dec 27777777777777779 17; Dec 55555555555555552 18; Dec 55555555555555552 18], Dec 64317124103657017 18);
  ([Dec 16666666666666666 17; Dec 16666666666666666 17; Dec 55555555555555552 18], Dec 64317124103657017 18);
  ([Dec 55555555555555552 18; Dec 27777777777777779 17; Dec 55555555555555552 18], Dec 64317124103657017 18);
  ([Dec 16666666666666666 17; Dec 55555555555555552 18; Dec 16666666666666666 17], Dec 64317124103657017 18);
  ([Dec 55555555555555552 18; Dec 16666666666666666 17; Dec 16666666666666666 17], Dec 64317124103657017 18);
  ([Dec 55555555555555552 18; Dec 55555555555555552 18; Dec 27777777777777779 17], Dec 64317124103657017 18);
  ([Dec 16666666666666666 17; Dec 55555555555555552 18; Dec 55555555555555552 18], Dec 64317124103657017 18);
  ([Dec 55555555555555552 18; Dec 16666666666666666 17; Dec 55555555555555552 18], Dec 64317124103657017 18);
  ([Dec 55555555555555552 18; Dec 55555555555555552 18; Dec 16666666666666666 17], Dec 64317124103657017 18);
  ([Dec 55555555555555552 18; Dec 55555555555555552 18; Dec 55555555555555552 18], Dec 64317124103657017 18);
  ([Dec 81250000000000000 17; Dec 62500000000000000 18; Dec 62500000000000000 18], Dec (-19783871629747760) 17);
  ([Dec 68750000000000000 17; Dec 18750000000000000 17; Dec 62500000000000000 18], Dec (-19783871629747760) 17);
  ([Dec 56250000000000000 17; Dec 31250000000000000 17; Dec 62500000000000000 18], Dec (-19783871629747760) 17);
  ([Dec 43750000000000000 17; Dec 43750000000000000 17; Dec 62500000000000000 18], Dec (-19783871629747760) 17);
  ([Dec 31250000000000000 17; Dec 56250000000000000 17; Dec 62500000000000000 18], Dec (-19783871629747760) 17);
  ([Dec 18750000000000000 17; Dec 68750000000000000 17; Dec 62500000000000000 18], Dec (-19783871629747760) 17);
  ([Dec 62500000000000000 18; Dec 81250000000000000 17; Dec 62500000000000000 18], Dec (-19783871629747760) 17);
  ([Dec 68750000000000000 17; Dec 62500000000000000 18; Dec 18750000000000000 17], Dec (-19783871629747760) 17);
  ([Dec 56250000000000000 17; Dec 18750000000000000 17; Dec 18750000000000000 17], Dec (-19783871629747760) 17);
  ([Dec 43750000000000000 17; Dec 31250000000000000 17; Dec 18750000000000000 17], Dec (-19783871629747760) 17);
  ([Dec 31250000000000000 17; Dec 43750000000000000 17; Dec 18750000000000000 17], Dec (-19783871629747760) 17);
  ([Dec 18750000000000000 17; Dec 56250000000000000 17; Dec 18750000000000000 17], Dec (-19783871629747760) 17);
  ([Dec 62500000000000000 18; Dec 68750000000000000 17; Dec 18750000000000000 17], Dec (-19783871629747760) 17);
  ([Dec 56250000000000000 17; Dec 62500000000000000 18; Dec 31250000000000000 17], Dec (-19783871629747760) 17);
  ([Dec 43750000000000000 17; Dec 18750000000000000 17; Dec 31250000000000000 17], Dec (-19783871629747760) 17);
  ([Dec 31250000000000000 17; Dec 31250000000000000 17; Dec 31250000000000000 17], Dec (-19783871629747760) 17);
  ([Dec 18750000000000000 17; Dec 43750000000000000 17; Dec 31250000000000000 17], Dec (-19783871629747760) 17);
  ([Dec 62500000000000000 18; Dec 56250000000000000 17; Dec 31250000000000000 17], Dec (-19783871629747760) 17);
  ([Dec 43750000000000000 17; Dec 62500000000000000 18; Dec 43750000000000000 17], Dec (-19783871629747760) 17);
  ([Dec 31250000000000000 17; Dec 18750000000000000 17; Dec 43750000000000000 17], Dec (-19783871629747760) 17);
  ([Dec 18750000000000000 17; Dec 31250000000000000 17; Dec 43750000000000000 17], Dec (-19783871629747760) 17);
  ([Dec 62500000000000000 18; Dec 43750000000000000 17; Dec 43750000000000000 17], Dec (-19783871629747760) 17);
  ([Dec 31250000000000000 17; Dec 62500000000000000 18; Dec 56250000000000000 17], Dec (-19783871629747760) 17);
  ([Dec 18750000000000000 17; Dec 18750000000000000 17; Dec 56250000000000000 17], Dec (-19783871629747760) 17);
  ([Dec 62500000000000000 18; Dec 31250000000000000 17; Dec 56250000000000000 17], Dec (-19783871629747760) 17);
  ([Dec 18750000000000000 17; Dec 62500000000000000 18; Dec 68750000000000000 17], Dec (-19783871629747760) 17);
  ([Dec 62500000000000000 18; Dec 18750000000000000 17; Dec 68750000000000000 17], Dec (-19783871629747760) 17);
  ([Dec 62500000000000000 18; Dec 62500000000000000 18; Dec 81250000000000000 17], Dec (-19783871629747760) 17);
  ([Dec 68750000000000000 17; Dec 62500000000000000 18; Dec 62500000000000000 18], Dec (-19783871629747760) 17);
  ([Dec 56250000000000000 17; Dec 18750000000000000 17; Dec 62500000000000000 18], Dec (-19783871629747760) 17);
  ([Dec 43750000000000000 17; Dec 31250000000000000 17; Dec 62500000000000000 18], Dec (-19783871629747760) 17);
  ([Dec 31250000000000000 17; Dec 43750000000000000 17; Dec 62500000000000000 18], Dec (-19783871629747760) 17);
  ([Dec 18750000000000000 17; Dec 56250000000000000 17; Dec 62500000000000000 18], Dec (-19783871629747760) 17);
  ([Dec 62500000000000000 18; Dec 68750000000000000 17; Dec 62500000000000000 18], Dec (-19783871629747760) 17);
  ([Dec 56250000000000000 17; Dec 62500000000000000 18; Dec 18750000000000000 17], Dec (-19783871629747760) 17);
  ([Dec 43750000000000000 17; Dec 18750000000000000 17; Dec 18750000000000000 17], Dec (-19783871629747760) 17);
  ([Dec 31250000000000000 17; Dec 31250000000000000 17; Dec 18750000000000000 17], Dec (-19783871629747760) 17);
  ([Dec 18750000000000000 17; Dec 43750000000000000 17; Dec 18750000000000000 17], Dec (-19783871629747760) 17);
  ([Dec 62500000000000000 18; Dec 56250000000000000 17; Dec 18750000000000000 17], Dec (-19783871629747760) 17);
  ([Dec 43750000000000000 17; Dec 62500000000000000 18; Dec 31250000000000000 17], Dec (-19783871629747760) 17);
  ([Dec 31250000000000000 17; Dec 18750000000000000 17; Dec 31250000000000000 17], Dec (-19783871629747760) 17);
  ([Dec 18750000000000000 17; Dec 31250000000000000 17; Dec 31250000000000000 17], Dec (-19783871629747760) 17);
  ([Dec 62500000000000000 18; Dec 43750000000000000 17; Dec 31250000000000000 17], Dec (-19783871629747760) 17);
  ([Dec 31250000000000000 17; Dec 62500000000000000 18; Dec 43750000000000000 17], Dec (-19783871629747760) 17);
  ([Dec 18750000000000000 17; Dec 18750000000000000 17; Dec 43750000000000000 17], Dec (-19783871629747760) 17);
  ([Dec 62500000000000000 18; Dec 31250000000000000 17; Dec 43750000000000000 17], Dec (-19783871629747760) 17);
  ([Dec 18750000000000000 17; Dec 62500000000000000 18; Dec 56250000000000000 17], Dec (-19783871629747760) 17);
  ([Dec 62500000000000000 18; Dec 18750000000000000 17; Dec 56250000000000000 17], Dec (-19783871629747760) 17);
  ([Dec 62500000000000000 18; Dec 62500000000000000 18; Dec 68750000000000000 17], Dec (-19783871629747760) 17);
  ([Dec 56250000000000000 17; Dec 62500000000000000 18; Dec 62500000000000000 18], Dec (-19783871629747760) 17);
  ([Dec 43750000000000000 17; Dec 18750000000000000 17; Dec 62500000000000000 18], Dec (-19783871629747760) 17);
  ([Dec 31250000000000000 17; Dec 31250000000000000 17; Dec 62500000000000000 18], Dec (-19783871629747760) 17);
  ([Dec 18750000000000000 17; Dec 43750000000000000 17; Dec 62500000000000000 18], Dec (-19783871629747760) 17);
  ([Dec 62500000000000000 18; Dec 56250000000000000 17; Dec 62500000000000000 18], Dec (-19783871629747760) 17);
  ([Dec 43750000000000000 17; Dec 62500000000000000 18; Dec 18750000000000000 17], Dec (-19783871629747760) 17);
  ([Dec 31250000000000000 17; Dec 18750000000000000 17; Dec 18750000000000000 17], Dec (-19783871629747760) 17);
  ([Dec 18750000000000000 17; Dec 31250000000000000 17; Dec 18750000000000000 17], Dec (-19783871629747760) 17);
  ([Dec 62500000000000000 18; Dec 43750000000000000 17; Dec 18750000000000000 17], Dec (-19783871629747760) 17);
  ([Dec 31250000000000000 17; Dec 62500000000000000 18; Dec 31250000000000000 17], Dec (-19783871629747760) 17);
  ([Dec 18750000000000000 17; Dec 18750000000000000 17; Dec 31250000000000000 17], Dec (-19783871629747760) 17);
  ([Dec 62500000000000000 18; Dec 31250000000000000 17; Dec 31250000000000000 17], Dec (-19783871629747760) 17);
  ([Dec 18750000000000000 17; Dec 62500000000000000 18; Dec 43750000000000000 17], Dec (-19783871629747760) 17);
  ([Dec 62500000000000000 18; Dec 18750000000000000 17; Dec 43750000000000000 17], Dec (-19783871629747760) 17);
  ([Dec 62500000000000000 18; Dec 62500000000000000 18; Dec 56250000000000000 17], Dec (-19783871629747760) 17);
  ([Dec 43750000000000000 17; Dec 62500000000000000 18; Dec 62500000000000000 18], Dec (-19783871629747760) 17);
  ([Dec 31250000000000000 17; Dec 18750000000000000 17; Dec 62500000000000000 18], Dec (-19783871629747760) 17);
  ([Dec 18750000000000000 17; Dec 31250000000000000 17; Dec 62500000000000000 18], Dec (-19783871629747760) 17);
  ([Dec 62500000000000000 18; Dec 43750000000000000 17; Dec 62500000000000000 18], Dec (-19783871629747760) 17);
  ([Dec 31250000000000000 17; Dec 62500000000000000 18; Dec 18750000000000000 17], Dec (-19783871629747760) 17);
  ([Dec 18750000000000000 17; Dec 18750000000000000 17; Dec 18750000000000000 17], Dec (-19783871629747760) 17);
  ([Dec 62500000000000000 18; Dec 31250000000000000 17; Dec 18750000000000000 17], Dec (-19783871629747760) 17);
  ([Dec 18750000000000000 17; Dec 62500000000000000 18; Dec 31250000000000000 17], Dec (-19783871629747760) 17);
  ([Dec 62500000000000000 18; Dec 18750000000000000 17; Dec 31250000000000000 17], Dec (-19783871629747760) 17);
  ([Dec 62500000000000000 18; Dec 62500000000000000 18; Dec 43750000000000000 17], Dec (-19783871629747760) 17);
  ([Dec 31250000000000000 17; Dec 62500000000000000 18; Dec 62500000000000000 18], Dec (-19783871629747760) 17);
  ([Dec 18750000000000000 17; Dec 18750000000000000 17; Dec 62500000000000000 18], Dec (-19783871629747760) 17);
  ([Dec 62500000000000000 18; Dec 31250000000000000 17; Dec 62500000000000000 18], Dec (-19783871629747760) 17);
  ([Dec 18750000000000000 17; Dec 62500000000000000 18; Dec 18750000000000000 17], Dec (-19783871629747760) 17);
  ([Dec 62500000000000000 18; Dec 18750000000000000 17; Dec 18750000000000000 17], Dec (-19783871629747760) 17);
  ([Dec 62500000000000000 18; Dec 62500000000000000 18; Dec 31250000000000000 17], Dec (-19783871629747760) 17);
  ([Dec 18750000000000000 17; Dec 62500000000000000 18; Dec 62500000000000000 18], Dec (-19783871629747760) 17);
  ([Dec 62500000000000000 18; Dec 18750000000000000 17; Dec 62500000000000000 18], Dec (-19783871629747760) 17);
  ([Dec 62500000000000000 18; Dec 62500000000000000 18; Dec 18750000000000000 17], Dec (-19783871629747760) 17);
  ([Dec 62500000000000000 18; Dec 62500000000000000 18; Dec 62500000000000000 18], Dec (-19783871629747760) 17);
  ([Dec 78571428571428570 17; Dec 71428571428571425 18; Dec 71428571428571425 18], Dec 22690862620887398 17);
  ([Dec 64285714285714290 17; Dec 21428571428571427 17; Dec 71428571428571425 18], Dec 22690862620887398 17);
  ([Dec 50000000000000000 17; Dec 35714285714285715 17; Dec 71428571428571425 18], Dec 22690862620887398 17);
  ([Dec 35714285714285715 17; Dec 50000000000000000 17; Dec 71428571428571425 18], Dec 22690862620887398 17);
  ([Dec 21428571428571427 17; Dec 64285714285714290 17; Dec 71428571428571425 18], Dec 22690862620887398 17);
  ([Dec 71428571428571425 18; Dec 78571428571428570 17; Dec 71428571428571425 18], Dec 22690862620887398 17);
  ([Dec 64285714285714290 17; Dec 71428571428571425 18; Dec 21428571428571427 17], Dec 22690862620887398 17);
  ([Dec 50000000000000000 17; Dec 21428571428571427 17; Dec 21428571428571427 17], Dec 22690862620887398 17);
  ([Dec 35714285714285715 17; Dec 35714285714285715 17; Dec 21428571428571427 17], Dec 22690862620887398 17);
  ([Dec 21428571428571427 17; Dec 50000000000000000 17; Dec 21428571428571427 17], Dec 22690862620887398 17);
  ([Dec 71428571428571425 18; Dec 64285714285714290 17; Dec 21428571428571427 17], Dec 22690862620887398 17);
  ([Dec 50000000000000000 17; Dec 71428571428571425 18; Dec 35714285714285715 17], Dec 22690862620887398 17);
  ([Dec 35714285714285715 17; Dec 21428571428571427 17; Dec 35714285714285715 17], Dec 22690862620887398 17);
  ([Dec 21428571428571427 17; Dec 35714285714285715 17; Dec 35714285714285715 17], Dec 22690862620887398 17);
  ([Dec 71428571428571425 18; Dec 50000000000000000 17; Dec 35714285714285715 17], Dec 22690862620887398 17);
  ([Dec 35714285714285715 17; Dec 71428571428571425 18; Dec 50000000000000000 17], Dec 22690862620887398 17);
  ([Dec 21428571428571427 17; Dec 21428571428571427 17; Dec 50000000000000000 17], Dec 22690862620887398 17);
  ([Dec 71428571428571425 18; Dec 35714285714285715 17; Dec 50000000000000000 17], Dec 22690862620887398 17);
  ([Dec 21428571428571427 17; Dec 71428571428571425 18; Dec 64285714285714290 17], Dec 22690862620887398 17);
  ([Dec 71428571428571425 18; Dec 21428571428571427 17; Dec 64285714285714290 17], Dec 22690862620887398 17);
  ([Dec 71428571428571425 18; Dec 71428571428571425 18; Dec 78571428571428570 17], Dec 22690862620887398 17);
  ([Dec 64285714285714290 17; Dec 71428571428571425 18; Dec 71428571428571425 18], Dec 22690862620887398 17);
  ([Dec 50000000000000000 17; Dec 21428571428571427 17; Dec 71428571428571425 18], Dec 22690862620887398 17);
  ([Dec 35714285714285715 17; Dec 35714285714285715 17; Dec 71428571428571425 18], Dec 22690862620887398 17);
  ([Dec 21428571428571427 17; Dec 50000000000000000 17; Dec 71428571428571425 18], Dec 22690862620887398 17);
  ([Dec 71428571428571425 18; Dec 64285714285714290 17; Dec 71428571428571425 18], Dec 22690862620887398 17);
  ([Dec 50000000000000000 17; Dec 71428571428571425 18; Dec 21428571428571427 17], Dec 22690862620887398 17);
  ([Dec 35714285714285715 17; Dec 21428571428571427 17; Dec 21428571428571427 17], Dec 22690862620887398 17);
  ([Dec 21428571428571427 17; Dec 35714285714285715 17; Dec 21428571428571427 17], Dec 22690862620887398 17);
  ([Dec 71428571428571425 18; Dec 50000000000000000 17; Dec 21428571428571427 17], Dec 22690862620887398 17);
  ([Dec 35714285714285715 17; Dec 71428571428571425 18; Dec 35714285714285715 17], Dec 22690862620887398 17);
  ([Dec 21428571428571427 17; Dec 21428571428571427 17; Dec 35714285714285715 17], Dec 22690862620887398 17);
  ([Dec 71428571428571425 18; Dec 35714285714285715 17; Dec 35714285714285715 17], Dec 22690862620887398 17);
  ([Dec 21428571428571427 17; Dec 71428571428571425 18; Dec 50000000000000000 17], Dec 22690862620887398 17);
  ([Dec 71428571428571425 18; Dec 21428571428571427 17; Dec 50000000000000000 17], Dec 22690862620887398 17);
  ([Dec 71428571428571425 18; Dec 71428571428571425 18; Dec 64285714285714290 17], Dec 22690862620887398 17);
  ([Dec 50000000000000000 17; Dec 71428571428571425 18; Dec 71428571428571425 18], Dec 22690862620887398 17);
  ([Dec 35714285714285715 17; Dec 21428571428571427 17; Dec 71428571428571425 18], Dec 22690862620887398 17);
  ([Dec 21428571428571427 17; Dec 35714285714285715 17; Dec 71428571428571425 18], Dec 22690862620887398 17);
  ([Dec 71428571428571425 18; Dec 50000000000000000 17; Dec 71428571428571425 18], Dec 22690862620887398 17);
  ([Dec 35714285714285715 17; Dec 71428571428571425 18; Dec 21428571428571427 17], Dec 22690862620887398 17);
  ([Dec 21428571428571427 17; Dec 21428571428571427 17; Dec 21428571428571427 17], Dec 22690862620887398 17);
  ([Dec 71428571428571425 18; Dec 35714285714285715 17; Dec 21428571428571427 17], Dec 22690862620887398 17);
  ([Dec 21428571428571427 17; Dec 71428571428571425 18; Dec 35714285714285715 17], Dec 22690862620887398 17);
  ([Dec 71428571428571425 18; Dec 21428571428571427 17; Dec 35714285714285715 17], Dec 22690862620887398 17);
  ([Dec 71428571428571425 18; Dec 71428571428571425 18; Dec 50000000000000000 17], Dec 22690862620887398 17);
  ([Dec 35714285714285715 17; Dec 71428571428571425 18; Dec 71428571428571425 18], Dec 22690862620887398 17);
  ([Dec 21428571428571427 17; Dec 21428571428571427 17; Dec 71428571428571425 18], Dec 22690862620887398 17);
  ([Dec 71428571428571425 18; Dec 35714285714285715 17; Dec 71428571428571425 18], Dec 22690862620887398 17);
  ([Dec 21428571428571427 17; Dec 71428571428571425 18; Dec 21428571428571427 17], Dec 22690862620887398 17);
  ([Dec 71428571428571425 18; Dec 21428571428571427 17; Dec 21428571428571427 17], Dec 22690862620887398 17);
  ([Dec 71428571428571425 18; Dec 71428571428571425 18; Dec 35714285714285715 17], Dec 22690862620887398 17);
  ([Dec 21428571428571427 17; Dec 71428571428571425 18; Dec 71428571428571425 18], Dec 22690862620887398 17);
  ([Dec 71428571428571425 18; Dec 21428571428571427 17; Dec 71428571428571425 18], Dec 22690862620887398 17);
  ([Dec 71428571428571425 18; Dec 71428571428571425 18; Dec 21428571428571427 17], Dec 22690862620887398 17);
  ([Dec 71428571428571425 18; Dec 71428571428571425 18; Dec 71428571428571425 18], Dec 22690862620887398 17);
  ([Dec 75000000000000000 17; Dec 83333333333333329 18; Dec 83333333333333329 18], Dec (-11985271870986156) 17);
  ([Dec 58333333333333337 17; Dec 25000000000000000 17; Dec 83333333333333329 18], Dec (-11985271870986156) 17);
  ([Dec 41666666666666669 17; Dec 41666666666666669 17; Dec 83333333333333329 18], Dec (-11985271870986156) 17);
  ([Dec 25000000000000000 17; Dec 58333333333333337 17; Dec 83333333333333329 18], Dec (-11985271870986156) 17);
  ([Dec 83333333333333329 18; Dec 75000000000000000 17; Dec 83333333333333329 18], Dec (-11985271870986156) 17);
  ([Dec 58333333333333337 17; Dec 83333333333333329 18; Dec 25000000000000000 17], Dec (-11985271870986156) 17);
  ([Dec 41666666666666669 17; Dec 25000000000000000 17; Dec 25000000000000000 17], Dec (-11985271870986156) 17);
  ([Dec 25000000000000000 17; Dec 41666666666666669 17; Dec 25000000000000000 17], Dec (-11985271870986156) 17);
  ([Dec 83333333333333329 18; Dec 58333333333333337 17; Dec 25000000000000000 17], Dec (-11985271870986156) 17);
  ([Dec 41666666666666669 17; Dec 83333333333333329 18; Dec 41666666666666669 17], Dec (-11985271870986156) 17);
  ([Dec 25000000000000000 17; Dec 25000000000000000 17; Dec 41666666666666669 17], Dec (-11985271870986156) 17);
  ([Dec 83333333333333329 18; Dec 41666666666666669 17; Dec 41666666666666669 17], Dec (-11985271870986156) 17);
  ([Dec 25000000000000000 17; Dec 83333333333333329 18; Dec 58333333333333337 17], Dec (-11985271870986156) 17);
  ([Dec 83333333333333329 18; Dec 25000000000000000 17; Dec 58333333333333337 17], Dec (-11985271870986156) 17);
  ([Dec 83333333333333329 18; Dec 83333333333333329 18; Dec 75000000000000000 17], Dec (-11985271870986156) 17);
  ([Dec 58333333333333337 17; Dec 83333333333333329 18; Dec 83333333333333329 18], Dec (-11985271870986156) 17);
  ([Dec 41666666666666669 17; Dec 25000000000000000 17; Dec 83333333333333329 18], Dec (-11985271870986156) 17);
  ([Dec 25000000000000000 17; Dec 41666666666666669 17; Dec 83333333333333329 18], Dec (-11985271870986156) 17);
  ([Dec 83333333333333329 18; Dec 58333333333333337 17; Dec 83333333333333329 18], Dec (-11985271870986156) 17);
  ([Dec 41666666666666669 17; Dec 83333333333333329 18; Dec 25000000000000000 17], Dec (-11985271870986156) 17);
  ([Dec 25000000000000000 17; Dec 25000000000000000 17; Dec 25000000000000000 17], Dec (-11985271870986156) 17);
  ([Dec 83333333333333329 18; Dec 41666666666666669 17; Dec 25000000000000000 17], Dec (-11985271870986156) 17);
  ([Dec 25000000000000000 17; Dec 83333333333333329 18; Dec 41666666666666669 17], Dec (-11985271870986156) 17);
  ([Dec 83333333333333329 18; Dec 25000000000000000 17; Dec 41666666666666669 17], Dec (-11985271870986156) 17);
  ([Dec 83333333333333329 18; Dec 83333333333333329 18; Dec 58333333333333337 17], Dec (-11985271870986156) 17);
  ([Dec 41666666666666669 17; Dec 83333333333333329 18; Dec 83333333333333329 18], Dec (-11985271870986156) 17);
  ([Dec 25000000000000000 17; Dec 25000000000000000 17; Dec 83333333333333329 18], Dec (-11985271870986156) 17);
  ([Dec 83333333333333329 18; Dec 41666666666666669 17; Dec 83333333333333329 18], Dec (-11985271870986156) 17);
  ([Dec 25000000000000000 17; Dec 83333333333333329 18; Dec 25000000000000000 17], Dec (-11985271870986156) 17);
  ([Dec 83333333333333329 18; Dec 25000000000000000 17; Dec 25000000000000000 17], Dec (-11985271870986156) 17);
  ([Dec 83333333333333329 18; Dec 83333333333333329 18; Dec 41666666666666669 17], Dec (-11985271870986156) 17);
  ([Dec 25000000000000000 17; Dec 83333333333333329 18; Dec 83333333333333329 18], Dec (-11985271870986156) 17);
  ([Dec 83333333333333329 18; Dec 25000000000000000 17; Dec 83333333333333329 18], Dec (-11985271870986156) 17);
  ([Dec 83333333333333329 18; Dec 83333333333333329 18; Dec 25000000000000000 17], Dec (-11985271870986156) 17);
  ([Dec 83333333333333329 18; Dec 83333333333333329 18; Dec 83333333333333329 18], Dec (-11985271870986156) 17);
  ([Dec 69999999999999996 17; Dec 10000000000000001 17; Dec 10000000000000001 17], Dec 29171614577559731 18);
  ([Dec 50000000000000000 17; Dec 29999999999999999 17; Dec 10000000000000001 17], Dec 29171614577559731 18);
  ([Dec 29999999999999999 17; Dec 50000000000000000 17; Dec 10000000000000001 17], Dec 29171614577559731 18);
  ([Dec 10000000000000001 17; Dec 69999999999999996 17; Dec 10000000000000001 17], Dec 29171614577559731 18);
  ([Dec 50000000000000000 17; Dec 10000000000000001 17; Dec 29999999999999999 17], Dec 29171614577559731 18);
  ([Dec 29999999999999999 17; Dec 29999999999999999 17; Dec 29999999999999999 17], Dec 29171614577559731 18);
  ([Dec 10000000000000001 17; Dec 50000000000000000 17; Dec 29999999999999999 17], Dec 29171614577559731 18);
  ([Dec 29999999999999999 17; Dec 10000000000000001 17; Dec 50000000000000000 17], Dec 29171614577559731 18);
  ([Dec 10000000000000001 17; Dec 29999999999999999 17; Dec 50000000000000000 17], Dec 29171614577559731 18);
  ([Dec 10000000000000001 17; Dec 10000000000000001 17; Dec 69999999999999996 17], Dec 29171614577559731 18);
  ([Dec 50000000000000000 17; Dec 10000000000000001 17; Dec 10000000000000001 17], Dec 29171614577559731 18);
  ([Dec 29999999999999999 17; Dec 29999999999999999 17; Dec 10000000000000001 17], Dec 29171614577559731 18);
  ([Dec 10000000000000001 17; Dec 50000000000000000 17; Dec 10000000000000001 17], Dec 29171614577559731 18);
  ([Dec 29999999999999999 17; Dec 10000000000000001 17; Dec 29999999999999999 17], Dec 29171614577559731 18);
  ([Dec 10000000000000001 17; Dec 29999999999999999 17; Dec 29999999999999999 17], Dec 29171614577559731 18);
  ([Dec 10000000000000001 17; Dec 10000000000000001 17; Dec 50000000000000000 17], Dec 29171614577559731 18);
  ([Dec 29999999999999999 17; Dec 10000000000000001 17; Dec 10000000000000001 17], Dec 29171614577559731 18);
  ([Dec 10000000000000001 17; Dec 29999999999999999 17; Dec 10000000000000001 17], Dec 29171614577559731 18);
  ([Dec 10000000000000001 17; Dec 10000000000000001 17; Dec 29999999999999999 17], Dec 29171614577559731 18);
  ([Dec 10000000000000001 17; Dec 10000000000000001 17; Dec 10000000000000001 17], Dec 29171614577559731 18);
  ([Dec 62500000000000000 17; Dec 12500000000000000 17; Dec 12500000000000000 17], Dec (-28738778368407993) 19);
  ([Dec 37500000000000000 17; Dec 37500000000000000 17; Dec 12500000000000000 17], Dec (-28738778368407993) 19);
  ([Dec 12500000000000000 17; Dec 62500000000000000 17; Dec 12500000000000000 17], Dec (-28738778368407993) 19);
  ([Dec 37500000000000000 17; Dec 12500000000000000 17; Dec 37500000000000000 17], Dec (-28738778368407993) 19);
  ([Dec 12500000000000000 17; Dec 37500000000000000 17; Dec 37500000000000000 17], Dec (-28738778368407993) 19);
  ([Dec 12500000000000000 17; Dec 12500000000000000 17; Dec 62500000000000000 17], Dec (-28738778368407993) 19);
  ([Dec 37500000000000000 17; Dec 12500000000000000 17; Dec 12500000000000000 17], Dec (-28738778368407993) 19);
  ([Dec 12500000000000000 17; Dec 37500000000000000 17; Dec 12500000000000000 17], Dec (-28738778368407993) 19);
  ([Dec 12500000000000000 17; Dec 12500000000000000 17; Dec 37500000000000000 17], Dec (-28738778368407993) 19);
  ([Dec 12500000000000000 17; Dec 12500000000000000 17; Dec 12500000000000000 17], Dec (-28738778368407993) 19);
  ([Dec 50000000000000000 17; Dec 16666666666666666 17; Dec 16666666666666666 17], Dec 83210734577922088 21);
  ([Dec 16666666666666666 17; Dec 50000000000000000 17; Dec 16666666666666666 17], Dec 83210734577922088 21);
  ([Dec 16666666666666666 17; Dec 16666666666666666 17; Dec 50000000000000000 17], Dec 83210734577922088 21);
  ([Dec 16666666666666666 17; Dec 16666666666666666 17; Dec 16666666666666666 17], Dec 83210734577922088 21);
  ([Dec 25000000000000000 17; Dec 25000000000000000 17; Dec 25000000000000000 17], Dec (-32575693951355315) 23)].

(** FillPointsAndWeights, order 15: Quadrature_Gauss3D_Tetrahedron.cpp:4989-6311. *)
Definition Tetrahedron_15 : rule := Rule false [
  ([Dec 83333333333333337 17; Dec 55555555555555552 18; Dec 55555555555555552 18], Dec 64317124103657017 18);
  ([Dec 72222222222222221 17; Dec 16666666666666666 17; Dec 55555555555555552 18], Dec 64317124103657017 18);
  ([Dec 61111111111111116 17; Dec 27777777777777779 17; Dec 55555555555555552 18], Dec 64317124103657017 18);
  ([Dec 50000000000000000 17; Dec 38888888888888890 17; Dec 55555555555555552 18], Dec 64317124103657017 18);
  ([Dec 38888888888888890 17; Dec 50000000000000000 17; Dec 55555555555555552 18], Dec 64317124103657017 18);
  ([Dec 27777777777777779 17; Dec 61111111111111116 17; Dec 55555555555555552 18], Dec 64317124103657017 18);
  ([Dec 16666666666666666 17; Dec 72222222222222221 17; Dec 55555555555555552 18], Dec 64317124103657017 18);
  ([Dec 55555555555555552 18; Dec 83333333333333337 17; Dec 55555555555555552 18], Dec 64317124103657017 18);
  ([Dec 72222222222222221 17; Dec 55555555555555552 18; Dec 16666666666666666 17], Dec 64317124103657017 18);
  ([Dec 61111111111111116 17; Dec 16666666666666666 17; Dec 16666666666666666 17], Dec 64317124103657017 18);
  ([Dec 50000000000000000 17; Dec 27777777777777779 17; Dec 16666666666666666 17], Dec 64317124103657017 18);
  ([Dec 38888888888888890 17; Dec 38888888888888890 17; Dec 16666666666666666 17], Dec 64317124103657017 18);
  ([Dec 27777777777777779 17; Dec 50000000000000000 17; Dec 16666666666666666 17], Dec 64317124103657017 18);
  ([Dec 16666666666666666 17; Dec 61111111111111116 17; Dec 16666666666666666 17], Dec 64317124103657017 18);
  ([Dec 55555555555555552 18; Dec 72222222222222221 17; Dec 16666666666666666 17], Dec 64317124103657017 18);
  ([Dec 61111111111111116 17; Dec 55555555555555552 18; Dec 27777777777777779 17], Dec 64317124103657017 18);
  ([Dec 50000000000000000 17; Dec 16666666666666666 17; Dec 27777777777777779 17], Dec 64317124103657017 18);
  ([Dec 38888888888888890 17; Dec 27777777777777779 17; Dec 27777777777777779 17], Dec 64317124103657017 18);
  ([Dec 27777777777777779 17; Dec 38888888888888890 17; Dec 27777777777777779 17], Dec 64317124103657017 18);
  ([Dec 16666666666666666 17; Dec 50000000000000000 17; Dec 27777777777777779 17], Dec 64317124103657017 18);
  ([Dec 55555555555555552 18; Dec 61111111111111116 17; Dec 27777777777777779 17], Dec 64317124103657017 18);
  ([Dec 50000000000000000 17; Dec 55555555555555552 18; Dec 38888888888888890 17], Dec 64317124103657017 18);
  ([Dec 38888888888888890 17; Dec 16666666666666666 17; Dec 38888888888888890 17], Dec 64317124103657017 18);
  ([Dec 27777777777777779 17; Dec 27777777777777779 17; Dec 38888888888888890 17], Dec 64317124103657017 18);
  ([Dec 16666666666666666 17; Dec 38888888888888890 17; Dec 38888888888888890 17], Dec 64317124103657017 18);
  ([Dec 55555555555555552 18; Dec 50000000000000000 17; Dec 38888888888888890 17], Dec 64317124103657017 18);
  ([Dec 38888888888888890 17; Dec 55555555555555552 18; Dec 50000000000000000 17], Dec 64317124103657017 18);
  ([Dec 27777777777777779 17; Dec 16666666666666666 17; Dec 50000000000000000 17], Dec 64317124103657017 18);
  ([Dec 16666666666666666 17; Dec 27777777777777779 17; Dec 50000000000000000 17], Dec 64317124103657017 18);
  ([Dec 55555555555555552 18; Dec 38888888888888890 17; Dec 50000000000000000 17], Dec 64317124103657017 18);
  ([Dec 27777777777777779 17; Dec 55555555555555552 18; Dec 61111111111111116 17], Dec 64317124103657017 18);
  ([Dec 16666666666666666 17; Dec 16666666666666666 17; Dec 61111111111111116 17], Dec 64317124103657017 18);
  ([Dec 55555555555555552 18; Dec 27777777777777779 17; Dec 61111111111111116 17], Dec 64317124103657017 18);
  ([Dec 16666666666666666 17; Dec 55555555555555552 18; Dec 72222222222222221 17], Dec 64317124103657017 18);
  ([Dec 55555555555555552 18; Dec 16666666666666666 17; Dec 72222222222222221 17], Dec 64317124103657017 18);
  ([Dec 55555555555555552 18; Dec 55555555555555552 18; Dec 83333333333333337 17], Dec 64317124103657017 18);
  ([Dec 72222222222222221 17; Dec 55555555555555552 18; Dec 55555555555555552 18], Dec 64317124103657017 18);
  ([Dec 61111111111111116 17; Dec 16666666666666666 17; Dec 55555555555555552 18], Dec 64317124103657017 18);
  ([Dec 50000000000000000 17; Dec 27777777777777779 17; Dec 55555555555555552 18], Dec 64317124103657017 18);
  ([Dec 38888888888888890 17; Dec 38888888888888890 17; Dec 55555555555555552 18], Dec 64317124103657017 18);
  ([Dec 27777777777777779 17; Dec 50000000000000000 17; Dec 55555555555555552 18], Dec 64317124103657017 18);
  ([Dec 16666666666666666 17; Dec 61111111111111116 17; Dec 55555555555555552 18], Dec 64317124103657017 18);
  ([Dec 55555555555555552 18; Dec 72222222222222221 17; Dec 55555555555555552 18], Dec 64317124103657017 18);
  ([Dec 61111111111111116 17; Dec 55555555555555552 18; Dec 16666666666666666 17], Dec 64317124103657017 18);
  ([Dec 50000000000000000 17; Dec 16666666666666666 17; Dec 16666666666666666 17], Dec 64317124103657017 18);
  ([Dec 38888888888888890 17; Dec 27777777777777779 17; Dec 16666666666666666 17], Dec 64317124103657017 18);
  ([Dec 27777777777777779 17; Dec 38888888888888890 17; Dec 16666666666666666 17], Dec 64317124103657017 18);
  ([Dec 16666666666666666 17; Dec 50000000000000000 17; Dec 16666666666666666 17], Dec 64317124103657017 18);
  ([Dec 55555555555555552 18; Dec 61111111111111116 17; Dec 16666666666666666 17], Dec 64317124103657017 18);
  ([Dec 50000000000000000 17; Dec 55555555555555552 18; Dec 27777777777777779 17], Dec 64317124103657017 18);
  ([Dec 38888888888888890 17; Dec 16666666666666666 17; Dec 27777777777777779 17], Dec 64317124103657017 18);
  ([Dec 27777777777777779 17; Dec 27777777777777779 17; Dec 27777777777777779 17], Dec 64317124103657017 18);
  ([Dec 16666666666666666 17; Dec 38888888888888890 17; Dec 27777777777777779 17], Dec 64317124103657017 18);
  ([Dec 55555555555555552 18; Dec 50000000000000000 17; Dec 27777777777777779 17], Dec 64317124103657017 18);
  ([Dec 38888888888888890 17; Dec 55555555555555552 18; Dec 38888888888888890 17], Dec 64317124103657017 18);
  ([Dec 27777777777777779 17; Dec 16666666666666666 17; Dec 38888888888888890 17], Dec 64317124103657017 18);
  ([Dec 16666666666666666 17; Dec 27777777777777779 17; Dec 38888888888888890 17], Dec 64317124103657017 18);
  ([Dec 55555555555555552 18; Dec 38888888888888890 17; Dec 38888888888888890 17], Dec 64317124103657017 18);
  ([Dec 27777777777777779 17; Dec 55555555555555552 18; Dec 50000000000000000 17], Dec 64317124103657017 18);
  ([Dec 16666666666666666 17; Dec 16666666666666666 17; Dec 50000000000000000 17], Dec 64317124103657017 18);
  ([Dec 55555555555555552 18; Dec 27777777777777779 17; Dec 50000000000000000 17], Dec 64317124103657017 18);
  ([Dec 16666666666666666 17; Dec 55555555555555552 18; Dec 61111111111111116 17], Dec 64317124103657017 18);
  ([Dec 55555555555555552 18; Dec 16666666666666666 17; Dec 61111111111111116 17], Dec 64317124103657017 18);
  ([Dec 55555555555555552 18; Dec 55555555555555552 18; Dec 72222222222222221 17], Dec 64317124103657017 18);
  ([Dec 61111111111111116 17; Dec 55555555555555552 18; Dec 55555555555555552 18], Dec 64317124103657017 18);
  ([Dec 50000000000000000 17; Dec 16666666666666666 17; Dec 55555555555555552 18], Dec 64317124103657017 18);
  ([Dec 38888888888888890 17; Dec 27777777777777779 17; Dec 55555555555555552 18], Dec 64317124103657017 18);
  ([Dec 27777777777777779 17; Dec 38888888888888890 17; Dec 55555555555555552 18], Dec 64317124103657017 18);
  ([Dec 16666666666666666 17; Dec 50000000000000000 17; Dec 55555555555555552 18], Dec 64317124103657017 18);
  ([Dec 55555555555555552 18; Dec 61111111111111116 17; Dec 55555555555555552 18], Dec 64317124103657017 18);
  ([Dec 50000000000000000 17; Dec 55555555555555552 18; Dec 16666666666666666 17], Dec 64317124103657017 18);
  ([Dec 38888888888888890 17; Dec 16666666666666666 17; Dec 16666666666666666 17], Dec 64317124103657017 18);
  ([Dec 27777777777777779 17; Dec 27777777777777779 17; Dec 16666666666666666 17], Dec 64317124103657017 18);
  ([Dec 16666666666666666 17; Dec 38888888888888890 17; Dec 16666666666666666 17], Dec 64317124103657017 18);
  ([Dec 55555555555555552 18; Dec 50000000000000000 17; Dec 16666666666666666 17], Dec 64317124103657017 18);
  ([Dec 38888888888888890 17; Dec 55555555555555552 18; Dec 27777777777777779 17], Dec 64317124103657017 18);
  ([Dec 27777777777777779 17; Dec 16666666666666666 17; Dec 27777777777777779 17], Dec 64317124103657017 18);
  ([Dec 16666666666666666 17; Dec 27777777777777779 17; Dec 27777777777777779 17], Dec 64317124103657017 18);
  ([Dec 55555555555555552 18; Dec 38888888888888890 17; Dec 27777777777777779 17], Dec 64317124103657017 18);
  ([Dec 27777777777777779 17; Dec 55555555555555552 18; Dec 38888888888888890 17], Dec 64317124103657017 18);
  ([Dec 16666666666666666 17; Dec 16666666666666666 17; Dec 38888888888888890 17], Dec 64317124103657017 18);
  ([Dec 55555555555555552 18; Dec 27777777777777779 17; Dec 38888888888888890 17], Dec 64317124103657017 18);
  ([Dec 16666666666666666 17; Dec 55555555555555552 18; Dec 50000000000000000 17], Dec 64317124103657017 18);
  ([Dec 55555555555555552 18; Dec 16666666666666666 17; Dec 50000000000000000 17], Dec 64317124103657017 18);
  ([Dec 55555555555555552 18; Dec 55555555555555552 18; Dec 61111111111111116 17], Dec 64317124103657017 18);
  ([Dec 50000000000000000 17; Dec 55555555555555552 18; Dec 55555555555555552 18], Dec 64317124103657017 18);
  ([Dec 38888888888888890 17; Dec 16666666666666666 17; Dec 55555555555555552 18], Dec 64317124103657017 18);
  ([Dec 27777777777777779 17; Dec 27777777777777779 17; Dec 55555555555555552 18], Dec 64317124103657017 18);
  ([Dec 16666666666666666 17; Dec 38888888888888890 17; Dec 55555555555555552 18], Dec 64317124103657017 18);
  ([Dec 55555555555555552 18; Dec 50000000000000000 17; Dec 55555555555555552 18], Dec 64317124103657017 18);
  ([Dec 38888888888888890 17; Dec 55555555555555552 18; Dec 16666666666666666 17], Dec 64317124103657017 18);
  ([Dec 27777777777777779 17; Dec 16666666666666666 17; Dec 16666666666666666 17], Dec 64317124103657017 18);
  ([Dec 16666666666666666 17; Dec 27777777777777779 17; Dec 16666666666666666 17], Dec 64317124103657017 18);
  ([Dec 55555555555555552 18; Dec 38888888888888890 17; Dec 16666666666666666 17], Dec 64317124103657017 18);
  ([Dec 27777777777777779 17; Dec 55555555555555552 18; Dec 27777777777777779 17], Dec 64317124103657017 18);
  ([Dec 16666666666666666 17; Dec 16666666666666666 17; Dec 27777777777777779 17], Dec 64317124103657017 18);
  ([Dec 55555555555555552 18; Dec 27777777777777779 17; Dec 27777777777777779 17], Dec 64317124103657017 18);
  ([Dec 16666666666666666 17; Dec 55555555555555552 18; Dec 38888888888888890 17], Dec 64317124103657017 18);
  ([Dec 55555555555555552 18; Dec 16666666666666666 17; Dec 38888888888888890 17], Dec 64317124103657017 18);
  ([Dec 55555555555555552 18; Dec 55555555555555552 18; Dec 50000000000000000 17], Dec 64317124103657017 18);
  ([Dec 38888888888888890 17; Dec 55555555555555552 18; Dec 55555555555555552 18], Dec 64317124103657017 18);
  ([Dec 27777777777777779 17; Dec 16666666666666666 17; Dec 55555555555555552 18], Dec 64317124103657017 18);
  ([Dec 16666666666666666 17; Dec 27777777777777779 17; Dec 55555555555555552 18], Dec 64317124103657017 18);
  ([Dec 55555555555555552 18; Dec 38888888888888890 17; Dec 55555555555555552 18], Dec 64317124103657017 18);
  ([Dec 27777777777777779 17; Dec 55555555555555552 18; Dec 16666666666666666 17], Dec 64317124103657017 18);
  ([Dec 16666666666666666 17; Dec 16666666666666666 17; Dec 16666666666666666 17], Dec 64317124103657017 18);
  ([Dec 55555555555555552 18; Dec 27777777777777779 17; Dec 16666666666666666 17], Dec 64317124103657017 18);
  ([Dec 16666666666666666 17; Dec 55555555555555552 18; Dec 27777777777777779 17], Dec 64317124103657017 18);
  ([Dec 55555555555555552 18; Dec 16666666666666666 17; Dec 27777777777777779 17], Dec 64317124103657017 18);
  ([Dec 55555555555555552 18; Dec 55555555555555552 18; Dec 38888888888888890 17], Dec 64317124103657017 18);
  ([Dec 27777777777777779 17; Dec 55555555555555552 18; Dec 55555555555555552 18], Dec 64317124103657017 18);
  ([Dec 16666666666666666 17; Dec 16666666666666666 17; Dec 55555555555555552 18], Dec 64317124103657017 18);
  ([Dec 55555555555555552 18; Dec 27777777777777779 17; Dec 55555555555555552 18], Dec 64317124103657017 18);
  ([Dec 16666666666666666 17; Dec 55555555555555552 18; Dec 16666666666666666 17], Dec 64317124103657017 18);
  ([Dec 55555555555555552 18; Dec 16666666666666666 17; Dec 16666666666666666 17], Dec 64317124103657017 18);
  ([Dec 55555555555555552 18; Dec 55555555555555552 18; Dec 27777777777777779 17], Dec 64317124103657017 18);
  ([Dec 16666666666666666 17; Dec 55555555555555552 18; Dec 55555555555555552 18], Dec 64317124103657017 18);
  ([Dec 55555555555555552 18; Dec 16666666666666666 17; Dec 55555555555555552 18], Dec 64317124103657017 18);
  ([Dec 55555555555555552 18; Dec 55555555555555552 18; Dec 16666666666666666 17], Dec 64317124103657017 18);
  ([Dec 55555555555555552 18; Dec 55555555555555552 18; Dec 55555555555555552 18], Dec 64317124103657017 18);
  ([Dec 81250000000000000 17; Dec 62500000000000000 18; Dec 62500000000000000 18], Dec (-19783871629747760) 17);
  ([Dec 68750000000000000 17; Dec 18750000000000000 17; Dec 62500000000000000 18], Dec (-19783871629747760) 17);
  ([Dec 56250000000000000 17; Dec 31250000000000000 17; Dec 62500000000000000 18], Dec (-19783871629747760) 17);
  ([Dec 43750000000000000 17; Dec 43750000000000000 17; Dec 62500000000000000 18], Dec (-19783871629747760) 17);
  ([Dec 31250000000000000 17; Dec 56250000000000000 17; Dec 62500000000000000 18], Dec (-19783871629747760) 17);
  ([Dec 18750000000000000 17; Dec 68750000000000000 17; Dec 62500000000000000 18], Dec (-19783871629747760) 17);
  ([Dec 62500000000000000 18; Dec 81250000000000000 17; Dec 62500000000000000 18], Dec (-19783871629747760) 17);
  ([Dec 68750000000000000 17; Dec 62500000000000000 18; Dec 18750000000000000 17], Dec (-19783871629747760) 17);
  ([Dec 56250000000000000 17; Dec 18750000000000000 17; Dec 18750000000000000 17], Dec (-19783871629747760) 17);
  ([Dec 43750000000000000 17; Dec 31250000000000000 17; Dec 18750000000000000 17], Dec (-19783871629747760) 17);
  ([Dec 31250000000000000 17; Dec 43750000000000000 17; Dec 18750000000000000 17], Dec (-19783871629747760) 17);
  ([Dec 18750000000000000 17; Dec 56250000000000000 17; Dec 18750000000000000 17], Dec (-19783871629747760) 17);
  ([Dec 62500000000000000 18; Dec 68750000000000000 17; Dec 18750000000000000 17], Dec (-19783871629747760) 17);
  ([Dec 56250000000000000 17; Dec 62500000000000000 18; Dec 31250000000000000 17], Dec (-19783871629747760) 17);
  ([Dec 43750000000000000 17; Dec 18750000000000000 17; Dec 31250000000000000 17], Dec (-19783871629747760) 17);
  ([Dec 31250000000000000 17; Dec 31250000000000000 17; Dec 31250000000000000 17], Dec (-19783871629747760) 17);
  ([Dec 18750000000000000 17; Dec 43750000000000000 17; Dec 31250000000000000 17], Dec (-19783871629747760) 17);
  ([Dec 62500000000000000 18; Dec 56250000000000000 17; Dec 31250000000000000 17], Dec (-19783871629747760) 17);
  ([Dec 43750000000000000 17; Dec 62500000000000000 18; Dec 43750000000000000 17], Dec (-19783871629747760) 17);
  ([Dec 31250000000000000 17; Dec 18750000000000000 17; Dec 43750000000000000 17], Dec (-19783871629747760) 17);
  ([Dec 18750000000000000 17; Dec 31250000000000000 17; Dec 43750000000000000 17], Dec (-19783871629747760) 17);
  ([Dec 62500000000000000 18; Dec 43750000000000000 17; Dec 43750000000000000 17], Dec (-19783871629747760) 17);
  ([Dec 31250000000000000 17; Dec 62500000000000000 18; Dec 56250000000000000 17], Dec (-19783871629747760) 17);
  ([Dec 18750000000000000 17; Dec 18750000000000000 17; Dec 56250000000000000 17], Dec (-19783871629747760) 17);
  ([Dec 62500000000000000 18; Dec 31250000000000000 17; Dec 56250000000000000 17], Dec (-19783871629747760) 17);
  ([Dec 18750000000000000 17; Dec 62500000000000000 18; Dec 68750000000000000 17], Dec (-19783871629747760) 17);
  ([Dec 62500000000000000 18; Dec 18750000000000000 17; Dec 68750000000000000 17], Dec (-19783871629747760) 17);
  ([Dec 62500000000000000 18; Dec 62500000000000000 18; Dec 81250000000000000 17], Dec (-19783871629747760) 17);
  ([Dec 68750000000000000 17; Dec 62500000000000000 18; Dec 62500000000000000 18], Dec (-19783871629747760) 17);
  ([Dec 56250000000000000 17; Dec 18750000000000000 17; Dec 62500000000000000 18], Dec (-19783871629747760) 17);
  ([Dec 43750000000000000 17; Dec 31250000000000000 17; Dec 62500000000000000 18], Dec (-19783871629747760) 17);
  ([Dec 31250000000000000 17; Dec 43750000000000000 17; Dec 62500000000000000 18], Dec (-19783871629747760) 17);
  ([Dec 18750000000000000 17; Dec 56250000000000000 17; Dec 62500000000000000 18], Dec (-19783871629747760) 17);
  ([Dec 62500000000000000 18; Dec 68750000000000000 17; Dec 62500000000000000 18], Dec (-19783871629747760) 17);
  ([Dec 56250000000000000 17; Dec 62500000000000000 18; Dec 18750000000000000 17], Dec (-19783871629747760) 17);
  ([Dec 43750000000000000 17; Dec 18750000000000000 17; Dec 18750000000000000 17], Dec (-19783871629747760) 17);
  ([Dec 31250000000000000 17; Dec 31250000000000000 17; Dec 18750000000000000 17], Dec (-19783871629747760) 17);
  ([Dec 18750000000000000 17; Dec 43750000000000000 17; Dec 18750000000000000 17], Dec (-19783871629747760) 17);
  ([Dec 62500000000000000 18; Dec 56250000000000000 17; Dec 18750000000000000 17], Dec (-19783871629747760) 17);
  ([Dec 43750000000000000 17; Dec 62500000000000000 18; Dec 31250000000000000 17], Dec (-19783871629747760) 17);
  ([Dec 31250000000000000 17; Dec 18750000000000000 17; Dec 31250000000000000 17], Dec (-19783871629747760) 17);
  ([Dec 18750000000000000 17; Dec 31250000000000000 17; Dec 31250000000000000 17], Dec (-19783871629747760) 17);
  ([Dec 62500000000000000 18; Dec 43750000000000000 17; Dec 31250000000000000 17], Dec (-19783871629747760) 17);
  ([Dec 31250000000000000 17; Dec 62500000000000000 18; Dec 43750000000000000 17], Dec (-19783871629747760) 17);
  ([Dec 18750000000000000 17; Dec 18750000000000000 17; Dec 43750000000000000 17], Dec (-19783871629747760) 17);
  ([Dec 62500000000000000 18; Dec 31250000000000000 17; Dec 43750000000000000 17], Dec (-19783871629747760) 17);
  ([Dec 18750000000000000 17; Dec 62500000000000000 18; Dec 56250000000000000 17], Dec (-19783871629747760) 17);
  ([Dec 62500000000000000 18; Dec 18750000000000000 17; Dec 56250000000000000 17], Dec (-19783871629747760) 17);
  ([Dec 62500000000000000 18; Dec 62500000000000000 18; Dec 68750000000000000 17], Dec (-19783871629747760) 17);
  ([Dec 56250000000000000 17; Dec 62500000000000000 18; Dec 62500000000000000 18], Dec (-19783871629747760) 17);
  ([Dec 43750000000000000 17; Dec 18750000000000000 17; Dec 62500000000000000 18], Dec (-19783871629747760) 17);
  ([Dec 31250000000000000 17; Dec 31250000000000000 17; Dec 62500000000000000 18], Dec (-19783871629747760) 17);
  ([Dec 18750000000000000 17; Dec 43750000000000000 17; Dec 62500000000000000 18], Dec (-19783871629747760) 17);
  ([Dec 62500000000000000 18; Dec 56250000000000000 17; Dec 62500000000000000 18], Dec (-19783871629747760) 17);
  ([Dec 43750000000000000 17; Dec 62500000000000000 18; Dec 18750000000000000 17], Dec (-19783871629747760) 17);
  ([Dec 31250000000000000 17; Dec 18750000000000000 17; Dec 18750000000000000 17], Dec (-19783871629747760) 17);
  ([Dec 18750000000000000 17; Dec 31250000000000000 17; Dec 18750000000000000 17], Dec (-19783871629747760) 17);
  ([Dec 62500000000000000 18; Dec 43750000000000000 17; Dec 18750000000000000 17], Dec (-19783871629747760) 17);
  ([Dec 31250000000000000 17; Dec 62500000000000000 18; Dec 31250000000000000 17], Dec (-19783871629747760) 17);
  ([Dec 18750000000000000 17; Dec 18750000000000000 17; Dec 31250000000000000 17], Dec (-19783871629747760) 17);
  ([Dec 62500000000000000 18; Dec 31250000000000000 17; Dec 31250000000000000 17], Dec (-19783871629747760) 17);
  ([Dec 18750000000000000 17; Dec 62500000000000000 18; Dec 43750000000000000 17], Dec (-19783871629747760) 17);
  ([Dec 62500000000000000 18; Dec 18750000000000000 17; Dec 43750000000000000 17], Dec (-19783871629747760) 17);
  ([Dec 62500000000000000 18; Dec 62500000000000000 18; Dec 56250000000000000 17], Dec (-19783871629747760) 17);
  ([Dec 43750000000000000 17; Dec 62500000000000000 18; Dec 62500000000000000 18], Dec (-19783871629747760) 17);
  ([Dec 31250000000000000 17; Dec 18750000000000000 17; Dec 62500000000000000 18], Dec (-19783871629747760) 17);
  ([Dec 18750000000000000 17; Dec 31250000000000000 17; Dec 62500000000000000 18], Dec (-19783871629747760) 17);
  ([Dec 62500000000000000 18; Dec 43750000000000000 17; Dec 62500000000000000 18], Dec (-19783871629747760) 17);
  ([Dec 31250000000000000 17; Dec 62500000000000000 18; Dec 18750000000000000 17], Dec (-19783871629747760) 17);
  ([Dec 18750000000000000 17; Dec 18750000000000000 17; Dec 18750000000000000 17], Dec (-19783871629747760) 17);
  ([Dec 62500000000000000 18; Dec 31250000000000000 17; Dec 18750000000000000 17], Dec (-19783871629747760) 17);
  ([Dec 18750000000000000 17; Dec 62500000000000000 18; Dec 31250000000000000 17], Dec (-19783871629747760) 17);
  ([Dec 62500000000000000 18; Dec 18750000000000000 17; Dec 31250000000000000 17], Dec (-19783871629747760) 17);
  ([Dec 62500000000000000 18; Dec 62500000000000000 18; Dec 43750000000000000 17], Dec (-19783871629747760) 17);
  ([Dec 31250000000000000 17; Dec 62500000000000000 18; Dec 62500000000000000 18], Dec (-19783871629747760) 17);
  ([Dec 18750000000000000 17; Dec 18750000000000000 17; Dec 62500000000000000 18], Dec (-19783871629747760) 17);
  ([Dec 62500000000000000 18; Dec 31250000000000000 17; Dec 62500000000000000 18], Dec (-19783871629747760) 17);
  ([Dec 18750000000000000 17; Dec 62500000000000000 18; Dec 18750000000000000 17], Dec (-19783871629747760) 17);
  ([Dec 62500000000000000 18; Dec 18750000000000000 17; Dec 18750000000000000 17], Dec (-19783871629747760) 17);
  ([Dec 62500000000000000 18; Dec 62500000000000000 18; Dec 31250000000000000 17], Dec (-19783871629747760) 17);
  ([Dec 18750000000000000 17; Dec 62500000000000000 18; Dec 62500000000000000 18], Dec (-19783871629747760) 17);
  ([Dec 62500000000000000 18; Dec 18750000000000000 17; Dec 62500000000000000 18], Dec (-19783871629747760) 17);
  ([Dec 62500000000000000 18; Dec 62500000000000000 18; Dec 18750000000000000 17], Dec (-19783871629747760) 17);
  ([Dec 62500000000000000 18; Dec 62500000000000000 18; Dec 62500000000000000 18], Dec (-19783871629747760) 17);
  ([Dec 78571428571428570 17; Dec 71428571428571425 18; Dec 71428571428571425 18], Dec 22690862620887398 17);
  ([Dec 64285714285714290 17; Dec 21428571428571427 17; Dec 71428571428571425 18], Dec 22690862620887398 17);
  ([Dec 50000000000000000 17; Dec 35714285714285715 17; Dec 71428571428571425 18], Dec 22690862620887398 17);
  ([Dec 35714285714285715 17; Dec 50000000000000000 17; Dec 71428571428571425 18], Dec 22690862620887398 17);
  ([Dec 21428571428571427 17; Dec 64285714285714290 17; Dec 71428571428571425 18], Dec 22690862620887398 17);
  ([Dec 71428571428571425 18; Dec 78571428571428570 17; Dec 71428571428571425 18], Dec 22690862620887398 17);
  ([Dec 64285714285714290 17; Dec 71428571428571425 18; Dec 21428571428571427 17], Dec 22690862620887398 17);
  ([Dec 50000000000000000 17; Dec 21428571428571427 17; Dec 21428571428571427 17], Dec 22690862620887398 17);
  ([Dec 35714285714285715 17; Dec 35714285714285715 17; Dec 21428571428571427 17], Dec 22690862620887398 17);
  ([Dec 21428571428571427 17; Dec 50000000000000000 17; Dec 21428571428571427 17], Dec 22690862620887398 17);
  ([Dec 71428571428571425 18; Dec 64285714285714290 17; Dec 21428571428571427 17], Dec 22690862620887398 17);
  ([Dec 50000000000000000 17; Dec 71428571428571425 18; Dec 35714285714285715 17], Dec 22690862620887398 17);
  ([Dec 35714285714285715 17; Dec 21428571428571427 17; Dec 35714285714285715 17], Dec 22690862620887398 17);
  ([Dec 21428571428571427 17; Dec 35714285714285715 17; Dec 35714285714285715 17], Dec 22690862620887398 17);
  ([Dec 71428571428571425 18; Dec 50000000000000000 17; Dec 35714285714285715 17], Dec 22690862620887398 17);
  ([Dec 35714285714285715 17; Dec 71428571428571425 18; Dec 50000000000000000 17], Dec 22690862620887398 17);
  ([Dec 21428571428571427 17; Dec 21428571428571427 17; Dec 50000000000000000 17], Dec 22690862620887398 17);
  ([Dec 71428571428571425 18; Dec 35714285714285715 17; Dec 50000000000000000 17], Dec 22690862620887398 17);
  ([Dec 21428571428571427 17; Dec 71428571428571425 18; Dec 64285714285714290 17], Dec 22690862620887398 17);
  ([Dec 71428571428571425 18; Dec 21428571428571427 17; Dec 64285714285714290 17], Dec 22690862620887398 17);
  ([Dec 71428571428571425 18; Dec 71428571428571425 18; Dec 78571428571428570 17], Dec 22690862620887398 17);
  ([Dec 64285714285714290 17; Dec 71428571428571425 18; Dec 71428571428571425 18], Dec 22690862620887398 17);
  ([Dec 50000000000000000 17; Dec 21428571428571427 17; Dec 71428571428571425 18], Dec 22690862620887398 17);
  ([Dec 35714285714285715 17; Dec 35714285714285715 17; Dec 71428571428571425 18], Dec 22690862620887398 17);
  ([Dec 21428571428571427 17; Dec 50000000000000000 17; Dec 71428571428571425 18], Dec 22690862620887398 17);
  ([Dec 71428571428571425 18; Dec 64285714285714290 17; Dec 71428571428571425 18], Dec 22690862620887398 17);
  ([Dec 50000000000000000 17; Dec 71428571428571425 18; Dec 21428571428571427 17], Dec 22690862620887398 17);
  ([Dec 35714285714285715 17; Dec 21428571428571427 17; Dec 21428571428571427 17], Dec 22690862620887398 17);
  ([Dec 21428571428571427 17; Dec 35714285714285715 17; Dec 21428571428571427 17], Dec 22690862620887398 17);
  ([Dec 71428571428571425 18; Dec 50000000000000000 17; Dec 21428571428571427 17], Dec 22690862620887398 17);
  ([Dec 35714285714285715 17; Dec 71428571428571425 18; Dec 35714285714285715 17], Dec 22690862620887398 17);
  ([Dec 21428571428571427 17; Dec 21428571428571427 17; Dec 35714285714285715 17], Dec 22690862620887398 17);
  ([Dec 71428571428571425 18; Dec 35714285714285715 17; Dec 35714285714285715 17], Dec 22690862620887398 17);
  ([Dec 21428571428571427 17; Dec 71428571428571425 18; Dec 50000000000000000 17], Dec 22690862620887398 17);
  ([Dec 71428571428571425 18; Dec 21428571428571427 17; Dec 50000000000000000 17], Dec 22690862620887398 17);
  ([Dec 71428571428571425 18; Dec 71428571428571425 18; Dec 64285714285714290 17], Dec 22690862620887398 17);
  ([Dec 50000000000000000 17; Dec 71428571428571425 18; Dec 71428571428571425 18], Dec 22690862620887398 17);
  ([Dec 35714285714285715 17; Dec 21428571428571427 17; Dec 71428571428571425 18], Dec 22690862620887398 17);
  ([Dec 21428571428571427 17; Dec 35714285714285715 17; Dec 71428571428571425 18], Dec 22690862620887398 17);
  ([Dec 71428571428571425 18; Dec 50000000000000000 17; Dec 71428571428571425 18], Dec 22690862620887398 17);
  ([Dec 35714285714285715 17; Dec 71428571428571425 18; Dec 21428571428571427 17], Dec 22690862620887398 17);
  ([Dec 21428571428571427 17; Dec 21428571428571427 17; Dec 21428571428571427 17], Dec 22690862620887398 17);
  ([Dec 71428571428571425 18; Dec 35714285714285715 17; Dec 21428571428571427 17], Dec 22690862620887398 17);
  ([Dec 21428571428571427 17; Dec 71428571428571425 18; Dec 35714285714285715 17], Dec 22690862620887398 17);
  ([Dec 71428571428571425 18; Dec 21428571428571427 17; Dec 35714285714285715 17], Dec 22690862620887398 17);
  ([Dec 71428571428571425 18; Dec 71428571428571425 18; Dec 50000000000000000 17], Dec 22690862620887398 17);
  ([Dec 35714285714285715 17; Dec 71428571428571425 18; Dec 71428571428571425 18], Dec 22690862620887398 17);
  ([Dec 21428571428571427 17; Dec 21428571428571427 17; Dec 71428571428571425 18], Dec 22690862620887398 17);
  ([Dec 71428571428571425 18; Dec 35714285714285715 17; Dec 71428571428571425 18], Dec 22690862620887398 17);
  ([Dec 21428571428571427 17; Dec 71428571428571425 18; Dec 21428571428571427 17], Dec 22690862620887398 17);
  ([Dec 71428571428571425 18; Dec 21428571428571427 17; Dec 21428571428571427 17], Dec 22690862620887398 17);
  ([Dec 71428571428571425 18; Dec 71428571428571425 18; Dec 35714285714285715 17], Dec 22690862620887398 17);
  ([Dec 21428571428571427 17; Dec 71428571428571425 18; Dec 71428571428571425 18], Dec 22690862620887398 17);
  ([Dec 71428571428571425 18; Dec 21428571428571427 17; Dec 71428571428571425 18], Dec 22690862620887398 17);
  ([Dec 71428571428571425 18; Dec 71428571428571425 18; Dec 21428571428571427 17], Dec 22690862620887398 17);
  ([Dec 71428571428571425 18; Dec 71428571428571425 18; Dec 71428571428571425 18], Dec 22690862620887398 17);
  ([Dec 75000000000000000 17; Dec 83333333333333329 18; Dec 83333333333333329 18], Dec (-11985271870986156) 17);
  ([Dec 58333333333333337 17; Dec 25000000000000000 17; Dec 83333333333333329 18], Dec (-11985271870986156) 17);
  ([Dec 41666666666666669 17; Dec 41666666666666669 17; Dec 83333333333333329 18], Dec (-11985271870986156) 17);
  ([Dec 25000000000000000 17; Dec 58333333333333337 17; Dec 83333333333333329 18], Dec (-11985271870986156) 17);
  ([Dec 83333333333333329 18; Dec 75000000000000000 17; Dec 83333333333333329 18], Dec (-11985271870986156) 17);
  ([Dec 58333333333333337 17; Dec 83333333333333329 18; Dec 25000000000000000 17], Dec (-11985271870986156) 17);
  ([Dec 41666666666666669 17; Dec 25000000000000000 17; Dec 25000000000000000 17], Dec (-11985271870986156) 17);
  ([Dec 25000000000000000 17; Dec 41666666666666669 17; Dec 25000000000000000 17], Dec (-11985271870986156) 17);
  ([Dec 83333333333333329 18; Dec 58333333333333337 17; Dec 25000000000000000 17], Dec (-11985271870986156) 17);
  ([Dec 41666666666666669 17; Dec 83333333333333329 18; Dec 41666666666666669 17], Dec (-11985271870986156) 17);
  ([Dec 25000000000000000 17; Dec 25000000000000000 17; Dec 41666666666666669 17], Dec (-11985271870986156) 17);
  ([Dec 83333333333333329 18; Dec 41666666666666669 17; Dec 41666666666666669 17], Dec (-11985271870986156) 17);
  ([Dec 25000000000000000 17; Dec 83333333333333329 18; Dec 58333333333333337 17], Dec (-11985271870986156) 17);
  ([Dec 83333333333333329 18; Dec 25000000000000000 17; Dec 58333333333333337 17], Dec (-11985271870986156) 17);
  ([Dec 83333333333333329 18; Dec 83333333333333329 18; Dec 75000000000000000 17], Dec (-11985271870986156) 17);
  ([Dec 58333333333333337 17; Dec 83333333333333329 18; Dec 83333333333333329 18], Dec (-11985271870986156) 17);
  ([Dec 41666666666666669 17; Dec 25000000000000000 17; Dec 83333333333333329 18], Dec (-11985271870986156) 17);
  ([Dec 25000000000000000 17; Dec 41666666666666669 17; Dec 83333333333333329 18], Dec (-11985271870986156) 17);
  ([Dec 83333333333333329 18; Dec 58333333333333337 17; Dec 83333333333333329 18], Dec (-11985271870986156) 17);
  ([Dec 41666666666666669 17; Dec 83333333333333329 18; Dec 25000000000000000 17], Dec (-11985271870986156) 17);
  ([Dec 25000000000000000 17; Dec 25000000000000000 17; Dec 25000000000000000 17], Dec (-11985271870986156) 17);
  ([Dec 83333333333333329 18; Dec 41666666666666669 17; Dec 25000000000000000 17], Dec (-11985271870986156) 17);
  ([Dec 25000000000000000 17; Dec 83333333333333329 18; Dec 41666666666666669 17], Dec (-11985271870986156) 17);
  ([Dec 83333333333333329 18; Dec 25000000000000000 17; Dec 41666666666666669 17], Dec (-11985271870986156) 17);
  ([Dec 83333333333333329 18; Dec 83333333333333329 18; Dec 58333333333333337 17], Dec (-11985271870986156) 17);
  ([Dec 41666666666666669 17; Dec 83333333333333329 18; Dec 83333333333333329 18], Dec (-11985271870986156) 17);
  ([Dec 25000000000000000 17; Dec 25000000000000000 17; Dec 83333333333333329 18], Dec (-11985271870986156) 17);
  ([Dec 83333333333333329 18; Dec 41666666666666669 17; Dec 83333333333333329 18], Dec (-11985271870986156) 17);
  ([Dec 25000000000000000 17; Dec 83333333333333329 18; Dec 25000000000000000 17], Dec (-11985271870986156) 17);
  ([Dec 83333333333333329 18; Dec 25000000000000000 17; Dec 25000000000000000 17], Dec (-11985271870986156) 17);
  ([Dec 83333333333333329 18; Dec 83333333333333329 18; Dec 41666666666666669 17], Dec (-11985271870986156) 17);
  ([Dec 25000000000000000 17; Dec 83333333333333329 18; Dec 83333333333333329 18], Dec (-11985271870986156) 17);
  ([Dec 83333333333333329 18; Dec 25000000000000000 17; Dec 83333333333333329 18], Dec (-11985271870986156) 17);
  ([Dec 83333333333333329 18; Dec 83333333333333329 18; Dec 25000000000000000 17], Dec (-11985271870986156) 17);
  ([Dec 83333333333333329 18; Dec 83333333333333329 18; Dec 83333333333333329 18], Dec (-11985271870986156) 17);
  ([Dec 69999999999999996 17; Dec 10000000000000001 17; Dec 10000000000000001 17], Dec 29171614577559731 18);
  ([Dec 50000000000000000 17; Dec 29999999999999999 17; Dec 10000000000000001 17], Dec 29171614577559731 18);
  ([Dec 29999999999999999 17; Dec 50000000000000000 17; Dec 10000000000000001 17], Dec 29171614577559731 18);
  ([Dec 10000000000000001 17; Dec 69999999999999996 17; Dec 10000000000000001 17], Dec 29171614577559731 18);
  ([Dec 50000000000000000 17; Dec 10000000000000001 17; Dec 29999999999999999 17], Dec 29171614577559731 18);
  ([Dec 29999999999999999 17; Dec 29999999999999999 17; Dec 29999999999999999 17], Dec 29171614577559731 18);
  ([Dec 10000000000000001 17; Dec 50000000000000000 17; Dec 29999999999999999 17], Dec 29171614577559731 18);
  ([Dec 29999999999999999 17; Dec 10000000000000001 17; Dec 50000000000000000 17], Dec 29171614577559731 18);
  ([Dec 10000000000000001 17; Dec 29999999999999999 17; Dec 50000000000000000 17], Dec 29171614577559731 18);
  ([Dec 10000000000000001 17; Dec 10000000000000001 17; Dec 69999999999999996 17], Dec 29171614577559731 18);
  ([Dec 50000000000000000 17; Dec 10000000000000001 17; Dec 10000000000000001 17], Dec 29171614577559731 18);
  ([Dec 29999999999999999 17; Dec 29999999999999999 17; Dec 10000000000000001 17], Dec 29171614577559731 18);
  ([Dec 10000000000000001 17; Dec 50000000000000000 17; Dec 10000000000000001 17], Dec 29171614577559731 18);
  ([Dec 29999999999999999 17; Dec 10000000000000001 17; Dec 29999999999999999 17], Dec 29171614577559731 18);
  ([Dec 10000000000000001 17; Dec 29999999999999999 17; Dec 29999999999999999 17], Dec 29171614577559731 18);
  ([Dec 10000000000000001 17; Dec 10000000000000001 17; Dec 50000000000000000 17], Dec 29171614577559731 18);
  ([Dec 29999999999999999 17; Dec 10000000000000001 17; Dec 10000000000000001 17], Dec 29171614577559731 18);
  ([Dec 10000000000000001 17; Dec 29999999999999999 17; Dec 10000000000000001 17], Dec 29171614577559731 18);
  ([Dec 10000000000000001 17; Dec 10000000000000001 17; Dec 29999999999999999 17], Dec 29171614577559731 18);
  ([Dec 10000000000000001 17; Dec 10000000000000001 17; Dec 10000000000000001 17], Dec 29171614577559731 18);
  ([Dec 62500000000000000 17; Dec 12500000000000000 17; Dec 12500000000000000 17], Dec (-28738778368407993) 19);
  ([Dec 37500000000000000 17; Dec 37500000000000000 17; Dec 12500000000000000 17], Dec (-28738778368407993) 19);
  ([Dec 12500000000000000 17; Dec 62500000000000000 17; Dec 12500000000000000 17], Dec (-28738778368407993) 19);
  ([Dec 37500000000000000 17; Dec 12500000000000000 17; Dec 37500000000000000 17], Dec (-28738778368407993) 19);
  ([Dec 12500000000000000 17; Dec 37500000000000000 17; Dec 37500000000000000 17], Dec (-28738778368407993) 19);
  ([Dec 12500000000000000 17; Dec 12500000000000000 17; Dec 62500000000000000 17], Dec (-28738778368407993) 19);
  ([Dec 37500000000000000 17; Dec 12500000000000000 17; Dec 12500000000000000 17], Dec (-28738778368407993) 19);
  ([Dec 12500000000000000 17; Dec 37500000000000000 17; Dec 12500000000000000 17], Dec (-28738778368407993) 19);
  ([Dec 12500000000000000 17; Dec 12500000000000000 17; Dec 37500000000000000 17], Dec (-28738778368407993) 19);
  ([Dec 12500000000000000 17; Dec 12500000000000000 17; Dec 12500000000000000 17], Dec (-28738778368407993) 19);
  ([Dec 50000000000000000 17; Dec 16666666666666666 17; Dec 16666666666666666 17], Dec 83210734577922088 21);
  ([Dec 16666666666666666 17; Dec 50000000000000000 17; Dec 16666666666666666 17], Dec 83210734577922088 21);
  ([Dec 16666666666666666 17; Dec 16666666666666666 17; Dec 50000000000000000 17], Dec 83210734577922088 21);
  ([Dec 16666666666666666 17; Dec 16666666666666666 17; Dec 16666666666666666 17], Dec 83210734577922088 21);
  ([Dec 25000000000000000 17; Dec 25000000000000000 17; Dec 25000000000000000 17], Dec (-32575693951355315) 23)].

(** The switch of FillPointsAndWeights; other orders throw. *)
Definition Tetrahedron_Fill (order : nat) : outcome rule :=
  match order with
  | 0%nat => Ok Tetrahedron_0
  | 1%nat => Ok Tetrahedron_1
  | 2%nat => Ok Tetrahedron_2
  | 3%nat => Ok Tetrahedron_3
  | 4%nat => Ok Tetrahedron_4
  | 5%nat => Ok Tetrahedron_5
  | 6%nat => Ok Tetrahedron_6
  | 7%nat => Ok Tetrahedron_7
  | 8%nat => Ok Tetrahedron_8
  | 9%nat => Ok Tetrahedron_9
  | 10%nat => Ok Tetrahedron_10
  | 11%nat => Ok Tetrahedron_11
  | 12%nat => Ok Tetrahedron_12
  | 13%nat => Ok Tetrahedron_13
  | 14%nat => Ok Tetrahedron_14
  | 15%nat => Ok Tetrahedron_15
  | _ => Throw
  end.
