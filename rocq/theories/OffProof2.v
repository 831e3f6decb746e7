(** The edges of the mesh which is read; damaged files; a refined mesh. *)
From Verif Require Import Base BaseProof StringsModel StringsProof CsvModel CsvSpec CsvText FillModel FillSpec FillProofB EdgesModel EdgesSpec EdgesProof OffModel OffSpec OffProof.
From Verif Require Import CsrModel MeshModel MeshSpec MeshHist MeshProof8 MeshProof9 MeshWit FillProofH CsvWit.
From Coq Require Import Ascii ZifyBool ZifyNat ZifyN.

(** ** The number of edges *)

Lemma collect {A} (P : nat -> A -> Prop) n : (forall i, i < n -> exists x, P i x) ->
  exists l : list A, length l = n /\ forall i x, l !! i = Some x -> P i x.
Proof.
  induction n as [|n IH]; intros H; [by exists []|]. destruct IH as (l & L & Hl); [intros i Hi; apply H; lia|].
  destruct (H n) as [x Hx]; [lia|]. exists (l ++ [x]). rewrite app_length. cbn. split; [lia|]. intros i y Hi.
  apply lookup_app_Some in Hi as [Hi|[Hi1 Hi]]; [by apply Hl|].
  destruct (i - length l) as [|j] eqn:E; [|done]. injection Hi as <-. by replace i with n by lia.
Qed.

Lemma same_edges m m' rows : same_shape m m' rows -> edges_are_sides m rows -> num D1 m' = num D1 m.
Proof.
  intros S E.
  assert (Sym : forall a b, joined rows a b -> joined rows b a) by (intros a b (c & Hc & H); exists c; tauto).
  destruct (collect (fun e p => Cell1DOrigin e m' = Ok p.1 /\ Cell1DEnd e m' = Ok p.2 /\ (p.1 < p.2)%N /\ joined rows p.1 p.2) (num D1 m'))
    as (l' & L' & H').
  { intros e He. destruct (ss_edges _ _ _ S e He) as (a & b & ?). by exists (a, b). }
  destruct (collect (fun e (p : N * N) => (Cell1DOrigin e m = Ok p.1 /\ Cell1DEnd e m = Ok p.2 \/ Cell1DOrigin e m = Ok p.2 /\ Cell1DEnd e m = Ok p.1) /\
                        (p.1 < p.2)%N /\ joined rows p.1 p.2) (num D1 m)) as (l & L & H).
  { intros e He. destruct (es_edge _ _ E e He) as (a & b & Ha & Hb & Hn & Hj).
    destruct (decide (a < b)%N) as [Hl|Hl]; [exists (a, b)|exists (b, a)]; cbn [fst snd]; (split; [tauto|split; [lia|]]); [done|by apply Sym]. }
  assert (ND' : NoDup l').
  { apply NoDup_alt. intros i j x Hi Hj. pose proof (H' _ _ Hi) as (Oi & Ei & Lx & Jx). pose proof (H' _ _ Hj) as (Oj & Ej & _ & _).
    destruct (ss_sides _ _ _ S x.1 x.2 Lx Jx) as (e & He & U).
    apply lookup_lt_Some in Hi, Hj. rewrite L' in Hi, Hj.
    rewrite (proj1 (U i Hi)), (proj1 (U j Hj)) by done. done. }
  assert (ND : NoDup l).
  { apply NoDup_alt. intros i j x Hi Hj. pose proof (H _ _ Hi) as (Oi & _). pose proof (H _ _ Hj) as (Oj & _).
    apply lookup_lt_Some in Hi, Hj. rewrite L in Hi, Hj.
    destruct Oi as [[Oi Ei]|[Oi Ei]]; eapply (es_once _ _ E i j); try exact Oi; try exact Ei; try done; tauto. }
  assert (I1 : forall x, x ∈ l -> x ∈ l').
  { intros x Hx. apply elem_of_list_lookup in Hx as [i Hi]. destruct (H _ _ Hi) as (_ & Lx & Jx).
    destruct (ss_sides _ _ _ S x.1 x.2 Lx Jx) as (e & He & U).
    destruct (lookup_lt_is_Some_2 l' e) as [y Hy]; [by rewrite L'|]. destruct (H' _ _ Hy) as (Oy & Ey & _).
    destruct (proj2 (U e He) eq_refl) as [Ox Ex]. rewrite Ox in Oy. rewrite Ex in Ey. injection Oy as Oy. injection Ey as Ey.
    apply elem_of_list_lookup. exists e. rewrite Hy. destruct x, y; cbn in *. by subst. }
  assert (I2 : forall x, x ∈ l' -> x ∈ l).
  { intros x Hx. apply elem_of_list_lookup in Hx as [i Hi]. destruct (H' _ _ Hi) as (_ & _ & Lx & Jx).
    destruct (es_side _ _ E x.1 x.2 Jx) as (e & He & U).
    destruct (lookup_lt_is_Some_2 l e) as [y Hy]; [by rewrite L|]. destruct (H _ _ Hy) as (Oy & Ly & _).
    apply elem_of_list_lookup. exists e. rewrite Hy. destruct x as [a b], y as [c d]; cbn [fst snd] in *. f_equal.
    destruct U as [[U1 U2]|[U1 U2]], Oy as [[Y1 Y2]|[Y1 Y2]]; rewrite U1 in Y1; rewrite U2 in Y2; injection Y1 as ->; injection Y2 as ->;
      try done; exfalso; lia. }
  rewrite <- L, <- L'. apply Nat.le_antisymm; apply submseteq_length, NoDup_submseteq; done.
Qed.

(** ** Damaged files *)

Lemma off_empty k : StringsToOFFMesh k [] = Abort.
Proof. done. Qed.
Lemma off_one_line k l : StringsToOFFMesh k [l] = UB.
Proof. done. Qed.
Lemma off_first k l l' ls : StringsToOFFMesh k (l :: ls) = StringsToOFFMesh k (l' :: ls).
Proof. done. Qed.

(** The numbers announced by the second line. *)
Lemma off_truncated k l0 l1 ls n0 n1 n2 s1 s2 s3 :
  get_uint l1 = Ok (n0, s1) -> get_uint s1 = Ok (n2, s2) -> get_uint s2 = Ok (n1, s3) ->
  (2 + n0 + n2 < 4294967296)%N -> (N.of_nat (length ls) < n0 + n2)%N ->
  (forall v l, (N.of_nat v < n0)%N -> ls !! v = Some l -> exists p, get_point k l = Ok p) ->
  StringsToOFFMesh k (l0 :: l1 :: ls) = Abort.
Proof.
  intros E1 E2 E3 B L P. unfold StringsToOFFMesh. cbn [length].
  rewrite (proj2 (N.leb_le 1 _)) by lia. cbn [require mbind outcome_bind].
  change (vget (l0 :: l1 :: ls) 1) with (Ok l1). cbn [mbind outcome_bind]. rewrite E1. cbn [mbind outcome_bind]. rewrite E2. cbn [mbind outcome_bind].
  rewrite E3. cbn [mbind outcome_bind]. unfold u32. rewrite !N.mod_small by lia.
  destruct (decide (n0 <= N.of_nat (length ls))%N) as [H|H].
  - rewrite (proj2 (N.leb_le (2 + n0) _)) by lia. cbn [require mbind outcome_bind].
    destruct (collect (fun v p => v < N.to_nat n0 /\ (l ← vget (l0 :: l1 :: ls) (2 + v); get_point k l) = Ok p) (N.to_nat n0)) as (ps & Lp & Hp).
    { intros v Hv. destruct (lookup_lt_is_Some_2 ls v) as [l Hl]; [lia|]. destruct (P v l) as [p Hq]; [lia|done|]. exists p. split; [done|].
      change (vget (l0 :: l1 :: ls) (2 + v)) with (vget ls v). by rewrite (vget_Ok _ _ _ Hl). }
    rewrite (omapM_seq _ _ ps Lp); [|intros i b Hb; by apply Hp in Hb as [_ ?]].
    cbn [mbind outcome_bind]. rewrite (proj2 (N.leb_gt _ _)) by lia. done.
  - rewrite (proj2 (N.leb_gt (2 + n0) _)) by lia. cbn [require mbind outcome_bind]. done.
Qed.

(** The sum of the numbers overflows: the lines are not missed. *)
Lemma off_overflow k l0 l1 n0 n1 n2 s1 s2 s3 :
  get_uint l1 = Ok (n0, s1) -> get_uint s1 = Ok (n2, s2) -> get_uint s2 = Ok (n1, s3) ->
  (4294967294 <= n0 < 4294967296)%N -> StringsToOFFMesh k [l0; l1] = UB.
Proof.
  intros E1 E2 E3 B. unfold StringsToOFFMesh. cbn [length].
  change (1 <=? N.of_nat 2)%N with true. cbn [require mbind outcome_bind].
  change (vget [l0; l1] 1) with (Ok l1). cbn [mbind outcome_bind]. rewrite E1. cbn [mbind outcome_bind]. rewrite E2. cbn [mbind outcome_bind].
  rewrite E3. cbn [mbind outcome_bind]. unfold u32.
  replace ((2 + n0) mod 4294967296)%N with (n0 - 4294967294)%N.
  2: { replace (2 + n0)%N with ((n0 - 4294967294) + 1 * 4294967296)%N by lia. rewrite N.mod_add by done. rewrite N.mod_small by lia. done. }
  rewrite (proj2 (N.leb_le (n0 - 4294967294) _)) by lia. cbn [require mbind outcome_bind].
  destruct (N.to_nat n0) as [|n] eqn:E; [lia|]. done.
Qed.

(** A polygon mentions a point that is not there. *)
Lemma off_stray_vertex o m : blank m -> length (Points o) = N.to_nat (NumCell0Ds o) -> few (length (Points o)) ->
  ~ in_range (length (Points o)) (map (map to_uint) (Polygons o)) -> OFFMeshToMeshDAO o m = UB.
Proof.
  intros B L F H. unfold OFFMeshToMeshDAO.
  destruct (fill2_ok m (Points o) [] [] B F) as (m' & E & _); [done|done|by repeat constructor|].
  rewrite <- L. unfold FillMesh2D, fill_points in E.
  destruct (Cell0DsInsertCoordinates (Points o) _) as [m1| | | |]; cbn [mbind outcome_bind] in *; try done.
  destruct (activate D0 (length (Points o)) m1) as [m2| | | |]; cbn [mbind outcome_bind] in *; try done.
  by rewrite edges_ub.
Qed.

(** ** A refined mesh *)

Definition csv_rows : list (list N) := [[0; 1; 2]; [0; 3; 2]; [3; 1; 2]]%N.

Lemma rows_joined rows a b : joined rows a b <-> (a, b) ∈ triplets rows.
Proof. symmetry. apply triplets_joined. Qed.

Lemma csv_sides_values : triplets csv_rows =
  [(0, 1); (1, 0); (1, 2); (2, 1); (2, 0); (0, 2); (0, 3); (3, 0); (3, 2); (2, 3); (2, 0); (0, 2);
   (3, 1); (1, 3); (1, 2); (2, 1); (2, 3); (3, 2)]%N.
Proof. vm_compute. reflexivity. Qed.

Lemma csv_describable : describable CsvSpec.fits (after w_csv) csv_rows.
Proof.
  split.
  - vm_compute. reflexivity.
  - vm_compute. discriminate.
  - vm_compute. discriminate.
  - vm_compute. discriminate.
  - intros v x y z H. rewrite (g_coord _ _ csv_represents) in H.
    assert (X : forallb (fun c => let p := geo_triple c in fitsb p.1.1 && fitsb p.1.2 && fitsb p.2) (am_cells a_csv D0) = true)
      by (vm_compute; reflexivity).
    rewrite forallb_forall in X.
    unfold look in H. destruct (am_cells a_csv D0 !! v) as [c|] eqn:E; [|done]. apply elem_of_list_lookup_2, elem_of_list_In, X in E.
    injection H as H. cbn zeta in E. rewrite H in E. apply andb_prop in E as [[E1 E2]%andb_prop E3].
    split; [by apply fitsb_spec|]. split; by apply fitsb_spec.
  - split; [vm_compute; reflexivity|]. intros f vs H.
    destruct f as [|[|[|f]]]; [..|done]; injection H as <-; vm_compute; reflexivity.
  - change (num D0 (after w_csv)) with 4. repeat constructor.
  - intros vs a Hv Hf. assert (J : joined csv_rows a a) by (exists vs; tauto). apply rows_joined in J. rewrite csv_sides_values in J.
    rewrite !elem_of_cons, elem_of_nil in J. naive_solver.
Qed.

Lemma csv_edges_are_sides : edges_are_sides (after w_csv) csv_rows.
Proof.
  assert (Ends : forall e, e < 6 -> exists p, [(0, 1); (1, 2); (2, 0); (0, 3); (3, 1); (3, 2)]%N !! e = Some p /\
    Cell1DOrigin e (after w_csv) = Ok p.1 /\ Cell1DEnd e (after w_csv) = Ok p.2).
  { intros e He. do 6 (destruct e as [|e]; [eexists; split; [reflexivity|]; split; vm_compute; reflexivity|]). lia. }
  change (num D1 (after w_csv)) with 6 in *.
  split; change (num D1 (after w_csv)) with 6.
  - intros e He. destruct (Ends e He) as (p & Hp & Ho & Ht). exists p.1, p.2. split; [exact Ho|]. split; [exact Ht|].
    assert (X : p.1 <> p.2 /\ (p.1, p.2) ∈ triplets csv_rows).
    { rewrite csv_sides_values. clear Ends Ho Ht.
      do 6 (destruct e as [|e]; [injection Hp as <-; cbn [fst snd]; split; [discriminate|]; rewrite !elem_of_cons; tauto|]). lia. }
    rewrite rows_joined. exact X.
  - intros a b J%rows_joined. rewrite csv_sides_values in J.
    assert (X : exists e, e < 6 /\ ([(0, 1); (1, 2); (2, 0); (0, 3); (3, 1); (3, 2)]%N !! e = Some (a, b) \/
                                    [(0, 1); (1, 2); (2, 0); (0, 3); (3, 1); (3, 2)]%N !! e = Some (b, a))).
    { rewrite !elem_of_cons, elem_of_nil in J.
      repeat (destruct J as [[= -> ->]|J];
        [first [exists 0; split; [lia|cbn; tauto]|exists 1; split; [lia|cbn; tauto]|exists 2; split; [lia|cbn; tauto]
               |exists 3; split; [lia|cbn; tauto]|exists 4; split; [lia|cbn; tauto]|exists 5; split; [lia|cbn; tauto]]|]). done. }
    destruct X as (e & He & X). exists e. split; [exact He|]. destruct (Ends e He) as (p & Hp & Ho & Ht).
    rewrite Hp in X. rewrite Ho, Ht. destruct X as [[= ->]|[= ->]]; cbn [fst snd]; tauto.
  - intros e e' a b He He' Ho Ht X. destruct (Ends e He) as (p & Hp & Ho1 & Ht1). destruct (Ends e' He') as (q & Hq & Ho2 & Ht2).
    rewrite Ho1 in Ho. rewrite Ht1 in Ht. rewrite Ho2, Ht2 in X. clear Ends Ho1 Ht1 Ho2 Ht2.
    assert (Y : q = p \/ q = (p.2, p.1)).
    { injection Ho as <-. injection Ht as <-. destruct p, q. cbn in *. destruct X as [[[= ->] [= ->]]|[[= ->] [= ->]]]; tauto. }
    clear Ho Ht X. do 6 (destruct e as [|e]; [injection Hp as <-;
      do 6 (destruct e' as [|e']; [injection Hq as <-; first [reflexivity|exfalso; destruct Y as [Y|Y]; discriminate Y]|]); lia|]). lia.
Qed.

(** The triangle which was cut and the edge which was cut are active again, and the marker of the first point is lost. *)
Lemma refined_off : exists fs m',
  ExportMeshToFile plain_codec (after w_csv) (txt "mesh.off") ∅ = Ok fs /\ ImportMeshFromFile plain_codec (txt "mesh.off") fs empty_mesh = Ok m' /\
  same_shape (after w_csv) m' csv_rows /\
  IsActive D2 0 (after w_csv) = Ok false /\ IsActive D2 0 m' = Ok true /\
  IsActive D1 0 (after w_csv) = Ok false /\ (exists e, Cell1DOrigin e m' = Ok 0%N /\ Cell1DEnd e m' = Ok 1%N /\ IsActive D1 e m' = Ok true) /\
  Marker D0 0 (after w_csv) = Ok 7%N /\ Marker D0 0 m' = Ok 0%N.
Proof.
  destruct (off_round_trip plain_codec CsvSpec.fits (after w_csv) csv_rows (txt "mesh.off") ∅ empty_mesh (plain_codec_ok _ blank_ok)
    csv_reachable csv_describable blank_empty) as (fs & m' & E1 & E2 & _ & S).
  exists fs, m'. split; [exact E1|]. split; [exact E2|]. split; [exact S|].
  assert (N2 : num D2 m' = 3) by (rewrite (ss_polygons _ _ _ S); vm_compute; reflexivity).
  assert (N0 : num D0 m' = 4) by (rewrite (ss_points _ _ _ S); vm_compute; reflexivity).
  split; [vm_compute; reflexivity|]. split; [apply (ss_active _ _ _ S); lia|]. split; [vm_compute; reflexivity|]. split.
  - destruct (ss_sides _ _ _ S 0%N 1%N) as (e & He & U); [done| |].
    { apply rows_joined. rewrite csv_sides_values, !elem_of_cons. tauto. }
    exists e. destruct (proj2 (U e He) eq_refl) as [X Y]. split; [exact X|]. split; [exact Y|]. by apply (ss_active _ _ _ S).
  - split; [vm_compute; reflexivity|]. apply (ss_marker _ _ _ S). lia.
Qed.

Lemma off_overflow_line k l0 : StringsToOFFMesh k [l0; txt "4294967295 0 0"] = UB.
Proof. eapply off_overflow; [vm_compute; reflexivity|vm_compute; reflexivity|vm_compute; reflexivity|]. done. Qed.

Lemma off_states k finite m rows file fs new :
  codec_ok k " "%char finite -> reachable m -> describable finite m rows -> blank new ->
  (forall d i, d = D0 \/ d = D2 -> i < num d m -> IsActive d i m = Ok true /\ Marker d i m = Ok 0%N) ->
  exists fs' m', ExportMeshToFile k m file fs = Ok fs' /\ ImportMeshFromFile k file fs' new = Ok m' /\
    forall d i, d = D0 \/ d = D2 -> i < num d m -> IsActive d i m' = IsActive d i m /\ Marker d i m' = Marker d i m.
Proof.
  intros K R D B A. destruct (off_round_trip k finite m rows file fs new K R D B) as (fs' & m' & E1 & E2 & _ & S).
  exists fs', m'. split; [done|]. split; [done|]. intros d i Hd Hi. destruct (A d i Hd Hi) as [-> ->].
  assert (Hi' : i < num d m') by (destruct Hd as [-> | ->]; [rewrite (ss_points _ _ _ S)|rewrite (ss_polygons _ _ _ S)]; done).
  by rewrite (ss_active _ _ _ S), (ss_marker _ _ _ S).
Qed.

Lemma off_states_refuted : exists k finite m rows fs m', codec_ok k " "%char finite /\ reachable m /\ describable finite m rows /\
  ExportMeshToFile k m (txt "mesh.off") ∅ = Ok fs /\ ImportMeshFromFile k (txt "mesh.off") fs empty_mesh = Ok m' /\
  IsActive D2 0 m = Ok false /\ IsActive D2 0 m' = Ok true /\ replaced_by D2 m 0 1 /\
  Marker D0 0 m = Ok 7%N /\ Marker D0 0 m' = Ok 0%N.
Proof.
  destruct refined_off as (fs & m' & E1 & E2 & _ & A1 & A2 & _ & _ & M1 & M2).
  exists plain_codec, CsvSpec.fits, (after w_csv), csv_rows, fs, m'.
  split; [exact (plain_codec_ok _ blank_ok)|]. split; [exact csv_reachable|]. split; [exact csv_describable|].
  split; [exact E1|]. split; [exact E2|]. split; [exact A1|]. split; [exact A2|]. split; [unfold replaced_by; vm_compute; reflexivity|].
  split; [exact M1|exact M2].
Qed.
