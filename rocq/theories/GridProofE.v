(** Structured parallelepipeds: the generated mesh. *)
From Coq Require Import QArith Qcanon.
From Verif Require Import Base BaseProof CsrModel MeshModel MeshSpec MeshRep MeshHist MeshProg FillModel FillSpec FillProofA FillProofB GridModel GridSpec GridProofA GridProofB GridProofC GridProofD.
From Coq Require Import ZifyBool ZifyNat ZifyN.
Local Open Scope nat_scope.

Lemma box_points_lookup o tl th tw ls hs ws i q : box_points o tl th tw ls hs ws !! i = Some q <->
  exists w h l a b c, ws !! w = Some c /\ hs !! h = Some b /\ ls !! l = Some a /\
    i = l + h * length ls + w * length ls * length hs /\
    q = (dbl3 (box_coordinate o tl th tw a b c), box_point_mark (length ls) (length hs) (length ws) w h l).
Proof.
  unfold box_points.
  rewrite (bind_uniform _ (length hs * length ls)).
  2: { intros x _. rewrite (bind_length _ (length ls)); [by rewrite imap_length|]. intros. by rewrite fmap_length, imap_length. }
  split.
  - intros (w & j & [w' c] & H1 & H2 & Hj & ->). rewrite list_lookup_imap in H1. apply fmap_Some in H1 as (c' & Hc & [= -> ->]).
    apply (bind_uniform _ (length ls)) in H2; [|intros; by rewrite fmap_length, imap_length].
    destruct H2 as (h & l & [h' b] & H1 & H2 & Hl & ->). rewrite list_lookup_imap in H1. apply fmap_Some in H1 as (b' & Hb & [= -> ->]).
    apply list_lookup_fmap_inv in H2 as ([l' a] & -> & H2). rewrite list_lookup_imap in H2. apply fmap_Some in H2 as (a' & Ha & [= -> ->]).
    exists w, h, l, a', b', c'. cbn [fst snd]. split_and!; [done..|nia|done].
  - intros (w & h & l & a & b & c & Hc & Hb & Ha & -> & ->).
    pose proof (lookup_lt_Some _ _ _ Hb). pose proof (lookup_lt_Some _ _ _ Ha).
    exists w, (l + h * length ls), (w, c). split_and!; [by rewrite list_lookup_imap, Hc| |nia|nia].
    apply (bind_uniform _ (length ls)); [intros; by rewrite fmap_length, imap_length|].
    exists h, l, (h, b). split_and!; [by rewrite list_lookup_imap, Hb| |done|done].
    by rewrite list_lookup_fmap, list_lookup_imap, Ha.
Qed.
Lemma box_points_length o tl th tw ls hs ws : length (box_points o tl th tw ls hs ws) = length ws * (length hs * length ls).
Proof.
  unfold box_points. rewrite (bind_length _ (length hs * length ls)); [by rewrite imap_length|].
  intros x _. rewrite (bind_length _ (length ls)); [by rewrite imap_length|]. intros. by rewrite fmap_length, imap_length.
Qed.

Lemma box_point_mark_spec nL nH nW w h l : 2 <= nL -> 2 <= nH -> 2 <= nW -> l < nL -> h < nH -> w < nW ->
  box_point_mark nL nH nW w h l = box_marker (place_of nL l) (place_of nH h) (place_of nW w).
Proof.
  intros. unfold box_point_mark, flag, first, final, inner, place_of.
  destruct (Nat.eqb_spec l 0), (Nat.eqb_spec l (nL - 1)), (Nat.eqb_spec h 0), (Nat.eqb_spec h (nH - 1)), (Nat.eqb_spec w 0), (Nat.eqb_spec w (nW - 1));
    try reflexivity; lia.
Qed.
Lemma box_coordinate_spec o tl th tw a b c : box_coordinate o tl th tw a b c = box_point o tl th tw a b c.
Proof.
  destruct o as [[ox oy] oz], tl as [[lx ly] lz], th as [[hx hy] hz], tw as [[wx wy] wz].
  unfold box_coordinate, box_point, along. cbn. done.
Qed.

Section reads3.
  Context (p0 : list (N * N * N * N)) (x y z : nat) (m : mesh) (Hx : 0 < x) (Hy : 0 < y) (Hz : 0 < z).
  Notation p1 := (fam (De x y z) (edata x y z)).
  Notation p2 := (fam (Df x y z) (fdata x y z)).
  Notation p3 := (cdata x y z <$> grid3 z y x).
  Context (R : reads_back (p0.*1) (p1.*1) (sides_of <$> p2) (p3.*1) (fun _ _ => true) (marks_of p0 p1 p2 p3) m).
  Let Hbal := box_balanced x y z.

  Lemma rd_polyhedron p : inside (Dc x y z) p -> let c := pos (Dc x y z) p in
    RelRow V3 c m = Ok (nv x y z <$> cverts p) /\ RelRow E3 c m = Ok (ne x y z <$> cedges p) /\ RelRow F3 c m = Ok (nf x y z <$> cfaces p) /\
    Marker D3 c m = Ok 0%N.
  Proof.
    intros Hp c. assert (Hq : p3 !! c = Some (cdata x y z p)) by (apply cells_inv; by exists p).
    destruct R as (_ & _ & _ & _ & _ & _ & _ & C & _). destruct (C c (cdata x y z p).1) as (C1 & C2 & C3); [by rewrite list_lookup_fmap, Hq|].
    split_and!; [done..|]. rewrite (rd_marker _ _ _ _ _ R); [unfold marks_of; by rewrite Hq|].
    destruct (rd_num _ _ _ _ _ R) as (_ & _ & _ & ->). by eapply lookup_lt_Some.
  Qed.
  Lemma rd_face i : ok (Df x y z) i -> let f := enc (Df x y z) i in
    f < num D2 m /\ RelRow V2 f m = Ok (nv x y z <$> fverts i) /\ RelRow E2 f m = Ok (ne x y z <$> fedges i) /\ Marker D2 f m = Ok (fmark x y z i.1 i.2).
  Proof.
    intros Hi f. pose proof (fam_lookup (Df x y z) (fdata x y z) i Hi) as L.
    destruct (rd_polygon _ _ _ _ _ Hbal R _ _ L) as (P1 & P2 & P3). destruct i as [k p].
    split_and!; [|done..]. destruct (rd_num _ _ _ _ _ R) as (_ & _ & -> & _). by eapply lookup_lt_Some.
  Qed.
  Lemma rd_cell_edge i : ok (De x y z) i -> marked_edge m (nv x y z i.2) (nv x y z (step i.1 i.2)) (emark x y z i.1 i.2).
  Proof. intros Hi. eapply rd_marked; [exact R|]. exact (fam_lookup (De x y z) (edata x y z) i Hi). Qed.

  Lemma rd_closed3 c : c < num D3 m -> closed_polyhedron 8 12 6 m c.
  Proof.
    destruct (rd_num _ _ _ _ _ R) as (_ & _ & _ & ->). intros Hc. destruct (lookup_lt_is_Some_2 _ _ Hc) as [q Hq].
    apply cells_inv in Hq as (p & Hp & -> & ->). destruct (rd_polyhedron p Hp) as (R1 & R2 & R3 & _).
    pose proof (cfaces_ok x y z Hx Hy Hz p Hp) as Of. pose proof (cedges_ok x y z Hx Hy Hz p Hp) as Oe. pose proof (cverts_ok x y z Hx Hy Hz p Hp) as Ov.
    exists (nv x y z <$> cverts p), (ne x y z <$> cedges p), (nf x y z <$> cfaces p). rewrite !fmap_length. split_and!; [done..| | | | | |].
    - eapply NoDup_names; [apply nv_inj; done|done|apply (cverts_NoDup x y z); done].
    - eapply NoDup_names; [apply ne_inj; done|done|apply (cedges_NoDup x y z); done].
    - eapply NoDup_names; [apply nf_inj; done|done|apply (cfaces_NoDup x y z); done].
    - intros f (i & -> & Hi)%elem_of_list_fmap. rewrite Forall_forall in Of. pose proof (Of i Hi) as Oi. destruct (rd_face i Oi) as (F1 & F2 & F3' & _).
      unfold nf. rewrite Nat2N.id. split; [done|]. exists (nv x y z <$> fverts i), (ne x y z <$> fedges i). split_and!; [done..| |].
      + intros v (u & -> & Hu)%elem_of_list_fmap. apply elem_of_list_fmap_1. by eapply face_verts_in.
      + intros v (u & -> & Hu)%elem_of_list_fmap. apply elem_of_list_fmap_1. by eapply face_edges_in.
    - intros v (u & -> & Hu)%elem_of_list_fmap. destruct (vert_on_face p u Hu) as (i & Hi & Hv). rewrite Forall_forall in Of.
      destruct (rd_face i (Of i Hi)) as (F1 & F2 & _). exists (nf x y z i), (nv x y z <$> fverts i). unfold nf. rewrite Nat2N.id.
      split_and!; [by apply (elem_of_list_fmap_1 (nf x y z))|done|by apply elem_of_list_fmap_1].
    - intros e (u & -> & Hu)%elem_of_list_fmap. destruct (edge_two_faces x y z Hx Hy Hz p u Hu) as (f & g & Hfg & Hf & Hg & K).
      rewrite Forall_forall in Of; rewrite Forall_forall in Oe. exists (nf x y z f), (nf x y z g).
      split; [intros E; apply Hfg; eapply (nf_inj x y z); [done..|by apply Of|by apply Of|done]|].
      split; [by apply elem_of_list_fmap_1|]. split; [by apply elem_of_list_fmap_1|].
      intros f' (i & -> & Hi)%elem_of_list_fmap. destruct (rd_face i (Of i Hi)) as (F1 & F2 & F3' & _).
      assert (B : borders m (N.to_nat (ne x y z u)) (N.to_nat (nf x y z i)) <-> u ∈ fedges i).
      { unfold borders, nf, ne. rewrite !Nat2N.id. change (N.of_nat (enc (De x y z) u)) with (ne x y z u).
        rewrite <-(elem_names (ne x y z) (ok (De x y z)) (fedges i) u).
        - split; [intros (_ & es & E & H); congruence|intros H; split; [done|]; by eexists].
        - apply ne_inj; done.
        - apply fedges_ok; [done..|by apply Of].
        - by apply Oe. }
      rewrite B, (K i Hi). split; [intros [->| ->]; tauto|].
      intros [E|E]; [left|right]; (eapply (nf_inj x y z); [done..|by apply Of|by apply Of|done]).
  Qed.

  Lemma rd_bounds f c : bounds m f c <-> lbounds x y z f c.
  Proof.
    destruct (rd_num _ _ _ _ _ R) as (_ & _ & _ & E). unfold bounds. rewrite E. split.
    - intros (Hc & fs & H1 & H2). destruct (lookup_lt_is_Some_2 _ _ Hc) as [q Hq]. exists q. split; [done|].
      apply cells_inv in Hq as (p & Hp & -> & ->). destruct (rd_polyhedron p Hp) as (_ & _ & R3 & _). rewrite R3 in H1. injection H1 as <-. done.
    - intros (q & Hq & H). split; [by eapply lookup_lt_Some|]. apply cells_inv in Hq as (p & Hp & -> & ->).
      destruct (rd_polyhedron p Hp) as (_ & _ & R3 & _). by eexists.
  Qed.
  Lemma rd_shared3 : two_sided_faces m.
  Proof.
    intros f Hf. destruct (rd_num _ _ _ _ _ R) as (_ & _ & E & _). rewrite E in Hf. destruct (lookup_lt_is_Some_2 _ _ Hf) as [q Hq].
    destruct (box_shared x y z Hx Hy Hz f q Hq) as (cs & C1 & C2 & C3). exists q.2, cs.
    split_and!; [by apply (rd_polygon _ _ _ _ _ Hbal R _ _ Hq)|done| |done]. intros c. by rewrite rd_bounds.
  Qed.
  Lemma rd_box : box_edges_faces (S x) (S y) (S z) m.
  Proof.
    assert (Fc : forall i, ok (Df x y z) i -> marked_face m (nv x y z <$> fverts i) (fmark x y z i.1 i.2)).
    { intros i Hi. destruct (rd_face i Hi) as (F1 & F2 & _ & F4). by eexists. }
    unfold box_edges_faces. cbv zeta. split_and!; intros w h l H1 H2 H3.
    - apply (rd_cell_edge (W1, (w, h, l))). unfold ok, inside, De. cbn [fst snd]. lia.
    - apply (rd_cell_edge (W2, (w, h, l))). unfold ok, inside, De. cbn [fst snd]. lia.
    - apply (rd_cell_edge (W3, (w, h, l))). unfold ok, inside, De. cbn [fst snd]. lia.
    - apply (Fc (W1, (w, h, l))). unfold ok, inside, Df. cbn [fst snd]. lia.
    - apply (Fc (W2, (w, h, l))). unfold ok, inside, Df. cbn [fst snd]. lia.
    - apply (Fc (W3, (w, h, l))). unfold ok, inside, Df. cbn [fst snd]. lia.
  Qed.
  Lemma rd_cell w h l : w < z -> h < y -> l < x ->
    let v w h l := N.of_nat (l + h * S x + w * S x * S y) in
    let c := l + h * x + w * x * y in
    RelRow V3 c m = Ok [v w h l; v w h (S l); v w (S h) (S l); v w (S h) l;
      v (S w) h l; v (S w) h (S l); v (S w) (S h) (S l); v (S w) (S h) l] /\ Marker D3 c m = Ok 0%N.
  Proof.
    intros H1 H2 H3. cbv zeta. destruct (rd_polyhedron (w, h, l)) as (P1 & _ & _ & P4); [unfold inside, Dc; cbn [fst snd]; lia|].
    unfold Dc, pos, cverts, nv, Dv, step in P1. unfold Dc, pos in P4. cbn [fst snd fmap list_fmap pos] in P1, P4. rewrite P1, P4. done.
  Qed.
End reads3.

Lemma rd_box_point p0 o tl th tw ls hs ws p1 p2 p3 m : p0 = box_points o tl th tw ls hs ws ->
  reads_back (p0.*1) (p1.*1) (sides_of <$> p2) (p3.*1) (fun _ _ => true) (marks_of p0 p1 p2 p3) m ->
  2 <= length ls -> 2 <= length hs -> 2 <= length ws ->
  forall w h l a b c, ws !! w = Some c -> hs !! h = Some b -> ls !! l = Some a ->
    Cell0DCoordinates (l + h * length ls + w * length ls * length hs) m = Ok (dbl3 (box_point o tl th tw a b c)) /\
    Marker D0 (l + h * length ls + w * length ls * length hs) m =
      Ok (box_marker (place_of (length ls) l) (place_of (length hs) h) (place_of (length ws) w)).
Proof.
  intros E R HL HH HW w h l a b c Hc Hb Ha.
  pose proof (lookup_lt_Some _ _ _ Hc) as Lc. pose proof (lookup_lt_Some _ _ _ Hb) as Lb. pose proof (lookup_lt_Some _ _ _ Ha) as La.
  pose proof (box_point_mark_spec _ _ _ w h l HL HH HW La Lb Lc) as M.
  assert (Hq : exists q, p0 !! (l + h * length ls + w * length ls * length hs) = Some q /\ q.1 = dbl3 (box_point o tl th tw a b c) /\
    q.2 = box_point_mark (length ls) (length hs) (length ws) w h l).
  { eexists. split; [rewrite E; apply box_points_lookup; by exists w, h, l, a, b, c|]. rewrite <-box_coordinate_spec. done. }
  destruct Hq as (q & Hq & E1 & E2'). rewrite <-E1, <-M, <-E2'. exact (rd_point _ _ _ _ _ R _ _ Hq).
Qed.

Lemma parallelepiped_ok m o tl th tw ls hs ws :
  blank m -> 2 <= length ls -> 2 <= length hs -> 2 <= length ws -> few (3 * length ls * length hs * length ws) ->
  let nL := length ls in let nH := length hs in let nW := length ws in
  exists m', CreateParallelepipedMesh o tl th tw ls hs ws m = Ok m' /\ reachable m' /\ mdim m' = 3 /\
    num D0 m' = nL * nH * nW /\
    num D1 m' = nH * nW * (nL - 1) + nL * nW * (nH - 1) + nL * nH * (nW - 1) /\
    num D2 m' = nW * (nL - 1) * (nH - 1) + nL * (nW - 1) * (nH - 1) + nH * (nW - 1) * (nL - 1) /\
    num D3 m' = (nL - 1) * (nH - 1) * (nW - 1) /\ num D0 m' + num D2 m' = num D1 m' + num D3 m' + 1 /\
    all_active m' /\
    (forall w h l a b c, ws !! w = Some c -> hs !! h = Some b -> ls !! l = Some a ->
       let v := l + h * nL + w * nL * nH in
       Cell0DCoordinates v m' = Ok (dbl3 (box_point o tl th tw a b c)) /\
       Marker D0 v m' = Ok (box_marker (place_of nL l) (place_of nH h) (place_of nW w))) /\
    (forall w h l, S w < nW -> S h < nH -> S l < nL ->
       let v w h l := N.of_nat (l + h * nL + w * nL * nH) in
       let c := l + h * (nL - 1) + w * (nL - 1) * (nH - 1) in
       RelRow V3 c m' = Ok [v w h l; v w h (S l); v w (S h) (S l); v w (S h) l;
         v (S w) h l; v (S w) h (S l); v (S w) (S h) (S l); v (S w) (S h) l] /\ Marker D3 c m' = Ok 0%N) /\
    box_edges_faces nL nH nW m' /\
    simple_edges m' /\ (forall f, f < num D2 m' -> closed_polygon 4 m' f) /\
    (forall c, c < num D3 m' -> closed_polyhedron 8 12 6 m' c) /\ two_sided_faces m'.
Proof.
  intros Hb HL HH HW Hf nL nH nW. subst nL nH nW. destruct (blank_rr m Hb) as (a0 & Hm & Ha).
  remember (length ls - 1) as x eqn:Ex. remember (length hs - 1) as y eqn:Ey. remember (length ws - 1) as z eqn:Ez.
  assert (EL : length ls = S x) by lia. assert (EH : length hs = S y) by lia. assert (EW : length ws = S z) by lia.
  assert (Px : 0 < x) by lia. assert (Py : 0 < y) by lia. assert (Pz : 0 < z) by lia.
  set (p0 := box_points o tl th tw ls hs ws).
  set (p1 := fam (De x y z) (edata x y z)). set (p2 := fam (Df x y z) (fdata x y z)). set (p3 := cdata x y z <$> grid3 z y x).
  assert (L0 : length p0 = S x * S y * S z) by (unfold p0; rewrite box_points_length, EL, EH, EW; lia).
  assert (L0' : length p0 = vol (Dv x y z)) by (rewrite L0; unfold vol, Dv; cbn [fst snd]; lia).
  assert (L1 : length p1 = S y * S z * x + S x * S z * y + S x * S y * z) by (unfold p1; rewrite fam_length; unfold vol, De; cbn [fst snd]; lia).
  assert (L2 : length p2 = S z * x * y + S x * z * y + S y * z * x) by (unfold p2; rewrite fam_length; unfold vol, Df; cbn [fst snd]; lia).
  assert (L3 : length p3 = x * y * z) by (unfold p3; rewrite fmap_length, grid3_length; lia).
  pose proof (box_below x y z Px Py Pz) as B2. pose proof (box_below3 x y z Px Py Pz) as B3. rewrite <-L0' in B2, B3.
  destruct (generate3_does p0 p1 p2 p3 a0 Ha (box_balanced x y z) B2 B3 m Hm) as (m' & E & Hr).
  exists m'. split.
  { unfold CreateParallelepipedMesh. rewrite EL, EH, EW. rewrite (edges_fam x y z), (faces_fam x y z), (cells_fam x y z) by done.
    rewrite L0, L1, L2, L3 in E. rewrite !Nat.sub_1_r. cbn [Nat.pred]. exact E. }
  split; [apply Hr|]. split; [destruct Hr as [_ Rp]; by rewrite (r_dim _ _ Rp)|].
  assert (R : reads_back (p0.*1) (p1.*1) (sides_of <$> p2) (p3.*1) (fun _ _ => true) (marks_of p0 p1 p2 p3) m').
  { eapply built_reads; [|apply Hr]. unfold fits. rewrite !fmap_length, L0, L1, L2, L3. unfold few in Hf. rewrite EL, EH, EW in Hf.
    split_and!; lia. }
  destruct (rd_num _ _ _ _ _ R) as (N0 & N1 & N2 & N3).
  rewrite N0, N1, N2, N3, L0, L1, L2, L3, EL, EH, EW. split_and!; [done|done|done|done|lia|by eapply rd_active| | | | | | |].
  - intros w h l a b c Hc Hb' Ha' v. subst v.
    rewrite <-EL, <-EH, <-EW. exact (rd_box_point p0 o tl th tw ls hs ws p1 p2 p3 m' eq_refl R HL HH HW w h l a b c Hc Hb' Ha').
  - intros w h l H1 H2 H3. cbv zeta. replace (S x - 1) with x by lia. replace (S y - 1) with y by lia.
    apply (rd_cell p0 x y z m' Px Py Pz R w h l); lia.
  - exact (rd_box p0 x y z m' Px Py Pz R).
  - eapply rd_simple; [exact R|]. rewrite L0'. apply box_simple; done.
  - intros c Hc. eapply rd_closed; [apply box_balanced; done|exact R|apply box_closed; done|by rewrite N2, L2].
  - intros c Hc. apply (rd_closed3 p0 x y z m' Px Py Pz R). by rewrite N3, L3.
  - exact (rd_shared3 p0 x y z m' Px Py Pz R).
Qed.
