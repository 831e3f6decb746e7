(** Structured parallelepipeds are conforming. *)
From Coq Require Import QArith Qcanon.
From Verif Require Import Base BaseProof CsrModel MeshModel MeshSpec MeshRep MeshHist MeshProg FillModel FillSpec FillProofA FillProofB GridModel GridSpec GridProofA GridProofB GridProofC.
From Coq Require Import ZifyBool ZifyNat ZifyN.
Local Open Scope nat_scope.

(** ** Three loops *)
Lemma grid3_lookup nw nh nl i p : grid3 nw nh nl !! i = Some p <->
  p.1.1 < nw /\ p.1.2 < nh /\ p.2 < nl /\ i = p.2 + p.1.2 * nl + p.1.1 * nl * nh.
Proof.
  unfold grid3.
  assert (X : forall w : nat, (seq 0 nh ≫= fun h => (fun l => (w, h, l)) <$> seq 0 nl) = (fun hl : nat * nat => (w, hl.1, hl.2)) <$> grid2 nh nl).
  { intros w. unfold grid2. generalize (seq 0 nh) as hs. induction hs as [|h hs IH]; [done|]. cbn [mbind list_bind]. rewrite fmap_app, <-IH.
    f_equal. rewrite <-list_fmap_compose. done. }
  assert (Y : forall ws, (ws ≫= fun w : nat => seq 0 nh ≫= fun h => (fun l => (w, h, l)) <$> seq 0 nl) = ws ≫= fun w => (fun hl : nat * nat => (w, hl.1, hl.2)) <$> grid2 nh nl).
  { induction ws as [|w ws IH]; [done|]. cbn [mbind list_bind]. by rewrite X, IH. }
  rewrite Y.
  rewrite (bind_uniform _ (nh * nl)) by (intros; by rewrite fmap_length, grid2_length). split.
  - intros (w & j & w' & [-> Hw]%lookup_seq & H & Hj & ->). apply list_lookup_fmap_inv in H as ([h l] & -> & (H1 & H2 & ->)%grid2_lookup).
    cbn [fst snd] in *. split_and!; [done..|]. nia.
  - destruct p as [[w h] l]. cbn [fst snd]. intros (H1 & H2 & H3 & ->). exists w, (l + h * nl), w. split_and!; [by apply lookup_seq|..].
    + rewrite list_lookup_fmap. by rewrite (proj2 (grid2_lookup nh nl (l + h * nl) (h, l))).
    + nia.
    + nia.
Qed.
Lemma grid3_length nw nh nl : length (grid3 nw nh nl) = nw * nh * nl.
Proof.
  unfold grid3. rewrite (bind_length _ (nh * nl)); [rewrite seq_length; lia|].
  intros w _. rewrite (bind_length _ nl); [by rewrite seq_length|]. intros. by rewrite fmap_length, seq_length.
Qed.

(** ** Three families of cells *)
Notation spot := (nat * nat * nat)%type.
Inductive way := W1 | W2 | W3.
Definition pos (d p : spot) : nat := p.2 + p.1.2 * d.2 + p.1.1 * d.2 * d.1.2.
Definition vol (d : spot) : nat := d.1.1 * d.1.2 * d.2.
Definition inside (d p : spot) : Prop := p.1.1 < d.1.1 /\ p.1.2 < d.1.2 /\ p.2 < d.2.

Lemma pos_lt d p : inside d p -> pos d p < vol d.
Proof. destruct d as [[a b] c], p as [[w h] l]. unfold inside, pos, vol. cbn. intros (? & ? & ?). assert (h + w * b < a * b) by nia. nia. Qed.
Lemma pos_inj d p q : inside d p -> inside d q -> pos d p = pos d q -> p = q.
Proof.
  destruct d as [[a b] c], p as [[w h] l], q as [[w' h'] l']. unfold inside, pos. cbn. intros (? & ? & ?) (? & ? & ?) E.
  assert (E' : l + (h + w * b) * c = l' + (h' + w' * b) * c) by lia. apply pair_inj in E' as [-> E']; [|done..].
  apply pair_inj in E' as [-> ->]; done.
Qed.
Lemma pos_of d i : i < vol d -> exists p, inside d p /\ i = pos d p.
Proof.
  destruct d as [[a b] c]. unfold vol. cbn. intros Hi. destruct (pair_of c (a * b) i Hi) as (j & l & Hj & Hl & ->).
  destruct (pair_of b a j Hj) as (w & h & Hw & Hh & ->). exists (w, h, l). unfold inside, pos. cbn. split; [done|]. lia.
Qed.
Lemma grid3_at d p : inside d p -> grid3 d.1.1 d.1.2 d.2 !! pos d p = Some p.
Proof. intros (? & ? & ?). apply grid3_lookup. done. Qed.

Section fam.
  Context (D : way -> spot).
  Definition enc (i : way * spot) : nat :=
    match i.1 with W1 => pos (D W1) i.2 | W2 => vol (D W1) + pos (D W2) i.2 | W3 => vol (D W1) + vol (D W2) + pos (D W3) i.2 end.
  Definition ok (i : way * spot) : Prop := inside (D i.1) i.2.
  Lemma enc_inj i j : ok i -> ok j -> enc i = enc j -> i = j.
  Proof.
    destruct i as [k p], j as [k' q]. unfold ok, enc. cbn [fst snd]. intros Hi Hj.
    pose proof (pos_lt _ _ Hi). pose proof (pos_lt _ _ Hj).
    destruct k, k'; intros E; first [lia | f_equal; eapply pos_inj; [done|done|lia]].
  Qed.
  Context {A : Type} (f : way -> spot -> A).
  Definition fam : list A :=
    (f W1 <$> grid3 (D W1).1.1 (D W1).1.2 (D W1).2) ++ (f W2 <$> grid3 (D W2).1.1 (D W2).1.2 (D W2).2) ++ (f W3 <$> grid3 (D W3).1.1 (D W3).1.2 (D W3).2).
  Lemma fam_length : length fam = vol (D W1) + vol (D W2) + vol (D W3).
  Proof. unfold fam, vol. rewrite !app_length, !fmap_length, !grid3_length. lia. Qed.
  Lemma enc_lt i : ok i -> enc i < length fam.
  Proof. rewrite fam_length. destruct i as [[] p]; unfold ok, enc; cbn [fst snd]; intros H%pos_lt; lia. Qed.
  Lemma fam_lookup i : ok i -> fam !! enc i = Some (f i.1 i.2).
  Proof.
    unfold fam, ok, enc. intros H. pose proof (pos_lt _ _ H) as Hl.
    assert (L : forall k, length (f k <$> grid3 (D k).1.1 (D k).1.2 (D k).2) = vol (D k)) by (intros; unfold vol; by rewrite fmap_length, grid3_length).
    destruct i as [[] p]; cbn [fst snd] in *.
    - rewrite lookup_app_l by (by rewrite L). by rewrite list_lookup_fmap, grid3_at.
    - rewrite lookup_app_r by (rewrite L; lia). rewrite L. rewrite lookup_app_l by (rewrite L; lia).
      rewrite Nat.add_comm, Nat.add_sub. by rewrite list_lookup_fmap, grid3_at.
    - rewrite lookup_app_r by (rewrite L; lia). rewrite L. rewrite lookup_app_r by (rewrite L; lia). rewrite L.
      replace (vol (D W1) + vol (D W2) + pos (D W3) p - vol (D W1) - vol (D W2)) with (pos (D W3) p) by lia.
      by rewrite list_lookup_fmap, grid3_at.
  Qed.
  Lemma enc_of i : i < length fam -> exists j, ok j /\ i = enc j.
  Proof.
    rewrite fam_length. intros Hi. destruct (decide (i < vol (D W1))) as [H1|H1]; [|destruct (decide (i < vol (D W1) + vol (D W2))) as [H2|H2]].
    - destruct (pos_of _ _ H1) as (p & Hp & ->). by exists (W1, p).
    - destruct (pos_of (D W2) (i - vol (D W1))) as (p & Hp & E); [lia|]. exists (W2, p). split; [done|]. unfold enc. cbn [fst snd]. lia.
    - destruct (pos_of (D W3) (i - vol (D W1) - vol (D W2))) as (p & Hp & E); [lia|]. exists (W3, p). split; [done|]. unfold enc. cbn [fst snd]. lia.
  Qed.
  Lemma fam_inv i q : fam !! i = Some q -> exists j, ok j /\ i = enc j /\ q = f j.1 j.2.
  Proof.
    intros H. destruct (enc_of i) as (j & Hj & ->); [by eapply lookup_lt_Some|]. exists j. rewrite fam_lookup in H by done.
    split_and!; [done..|]. congruence.
  Qed.
End fam.

(** ** Symbolic cells *)
Section box.
  Context (x y z : nat) (Hx : 0 < x) (Hy : 0 < y) (Hz : 0 < z).
  Notation nL := (S x).
  Notation nH := (S y).
  Notation nW := (S z).
  Definition De (k : way) : spot := match k with W1 => (nW, nH, x) | W2 => (nW, y, nL) | W3 => (z, nH, nL) end.
  Definition Df (k : way) : spot := match k with W1 => (nW, y, x) | W2 => (z, nH, x) | W3 => (z, y, nL) end.
  Definition Dv : spot := (nW, nH, nL).
  Definition Dc : spot := (z, y, x).

  Definition step (k : way) (p : spot) : spot :=
    match k with W1 => (p.1.1, p.1.2, S p.2) | W2 => (p.1.1, S p.1.2, p.2) | W3 => (S p.1.1, p.1.2, p.2) end.
  Definition fdirs (k : way) : way * way := match k with W1 => (W1, W2) | W2 => (W1, W3) | W3 => (W2, W3) end.
  Definition fverts (i : way * spot) : list spot :=
    let '(a, b) := fdirs i.1 in [i.2; step a i.2; step b (step a i.2); step b i.2].
  Definition fedges (i : way * spot) : list (way * spot) :=
    let '(a, b) := fdirs i.1 in [(a, i.2); (b, step a i.2); (a, step b i.2); (b, i.2)].
  Definition cverts (p : spot) : list spot :=
    [p; step W1 p; step W1 (step W2 p); step W2 p; step W3 p; step W3 (step W1 p); step W3 (step W1 (step W2 p)); step W3 (step W2 p)].
  Definition cedges (p : spot) : list (way * spot) :=
    [(W1, p); (W1, step W2 p); (W1, step W3 p); (W1, step W3 (step W2 p));
     (W2, p); (W2, step W1 p); (W2, step W3 p); (W2, step W3 (step W1 p));
     (W3, p); (W3, step W1 p); (W3, step W2 p); (W3, step W2 (step W1 p))].
  Definition cfaces (p : spot) : list (way * spot) :=
    [(W1, p); (W1, step W3 p); (W2, p); (W2, step W2 p); (W3, p); (W3, step W1 p)].

  Definition emark (k : way) (p : spot) : N :=
    let pl := place_of nL p.2 in let ph := place_of nH p.1.2 in let pw := place_of nW p.1.1 in
    match k with W1 => box_marker Mid ph pw | W2 => box_marker pl Mid pw | W3 => box_marker pl ph Mid end.
  Definition fmark (k : way) (p : spot) : N :=
    let pl := place_of nL p.2 in let ph := place_of nH p.1.2 in let pw := place_of nW p.1.1 in
    match k with W1 => box_marker Mid Mid pw | W2 => box_marker Mid ph Mid | W3 => box_marker pl Mid Mid end.
  Definition nv (p : spot) : N := N.of_nat (pos Dv p).
  Definition ne (i : way * spot) : N := N.of_nat (enc De i).
  Definition nf (i : way * spot) : N := N.of_nat (enc Df i).
  Definition edata (k : way) (p : spot) : N * N * N := (nv p, nv (step k p), emark k p).
  Definition fdata (k : way) (p : spot) : list N * list N * N := (nv <$> fverts (k, p), ne <$> fedges (k, p), fmark k p).
  Definition cdata (p : spot) : polyhedron * N := (Polyhedron (nv <$> cverts p) (ne <$> cedges p) (nf <$> cfaces p), 0%N).

  Lemma cons_eq {A} (a b : A) l k : a = b -> l = k -> a :: l = b :: k.
  Proof. congruence. Qed.
  Lemma fmap_eq {A B} (f g : A -> B) (l : list A) : (forall a, a ∈ l -> f a = g a) -> f <$> l = g <$> l.
  Proof. intros H. apply list_fmap_ext. intros i a Ha. apply H. by eapply elem_of_list_lookup_2. Qed.
  Lemma grid3_elem nw nh nl p : p ∈ grid3 nw nh nl -> inside (nw, nh, nl) p.
  Proof. intros [i H]%elem_of_list_lookup. apply grid3_lookup in H. unfold inside. cbn [fst snd]. tauto. Qed.

  Ltac solve_marks := unfold flag, first, final, inner, place_of;
    repeat match goal with |- context [?a =? ?b] => destruct (Nat.eqb_spec a b) end; try reflexivity; lia.

  Lemma edges_fam : box_length_edges nL nH nW ++ box_height_edges nL nH nW ++ box_width_edges nL nH nW = fam De edata.
  Proof.
    unfold fam, De, box_length_edges, box_height_edges, box_width_edges. cbn [fst snd]. replace (nL - 1) with x by lia. replace (nH - 1) with y by lia. replace (nW - 1) with z by lia.
    f_equal; [|f_equal]; apply fmap_eq; intros [[w h] l] (Hw & Hh & Hl)%grid3_elem; cbn [fst snd] in *; unfold edata, nv, Dv, pos, step, emark, box_vertex; cbn [fst snd].
    - f_equal; [f_equal; f_equal; lia|]. solve_marks.
    - f_equal; [f_equal; f_equal; lia|]. solve_marks.
    - f_equal; [f_equal; f_equal; lia|]. solve_marks.
  Qed.
  Lemma faces_fam : box_lh_faces nL nH nW ++ box_lw_faces nL nH nW ++ box_hw_faces nL nH nW = fam Df fdata.
  Proof.
    unfold fam, Df, box_lh_faces, box_lw_faces, box_hw_faces. cbn [fst snd]. replace (nL - 1) with x by lia. replace (nH - 1) with y by lia. replace (nW - 1) with z by lia.
    f_equal; [|f_equal]; apply fmap_eq; intros [[w h] l] (Hw & Hh & Hl)%grid3_elem; cbn [fst snd] in *;
      unfold fdata, fverts, fedges, fdirs, nv, ne, enc, De, Dv, pos, vol, step, fmark, box_vertex, box_e1, box_e2, box_e3; cbn [fst snd fmap list_fmap];
      replace (nL - 1) with x by lia; replace (nH - 1) with y by lia;
      (f_equal; [f_equal; repeat (first [reflexivity | apply cons_eq; [first [reflexivity | apply f_equal; unfold box_vertex; lia]|]])|solve_marks]).
  Qed.
  Lemma cells_fam : box_cells nL nH nW = cdata <$> grid3 z y x.
  Proof.
    unfold box_cells. replace (nL - 1) with x by lia. replace (nH - 1) with y by lia. replace (nW - 1) with z by lia.
    apply fmap_eq; intros [[w h] l] (Hw & Hh & Hl)%grid3_elem; cbn [fst snd] in *.
    unfold cdata, cverts, cedges, cfaces, nv, ne, nf, enc, De, Df, Dv, pos, vol, step, box_vertex, box_e1, box_e2, box_e3, box_f1, box_f2, box_f3; cbn [fst snd fmap list_fmap].
    replace (nL - 1) with x by lia; replace (nH - 1) with y by lia; replace (nW - 1) with z by lia.
    f_equal. f_equal; repeat (first [reflexivity | apply cons_eq; [first [reflexivity | apply f_equal; unfold box_vertex; lia]|]]).
  Qed.

  (** ** What the symbolic cells refer to *)
  Ltac spots := repeat match goal with p : spot |- _ => destruct p as [[? ?] ?] | p : nat * nat |- _ => destruct p end.
  Ltac ranges := unfold ok, inside, De, Df, Dv, Dc in *; cbn [fst snd step] in *; lia.

  Lemma fverts_ok i : ok Df i -> Forall (inside Dv) (fverts i).
  Proof. destruct i as [[] [[w h] l]]; intros H; unfold fverts; cbn [fdirs fst snd]; rewrite !Forall_cons, Forall_nil; ranges. Qed.
  Lemma fedges_ok i : ok Df i -> Forall (ok De) (fedges i).
  Proof. destruct i as [[] [[w h] l]]; intros H; unfold fedges; cbn [fdirs fst snd]; rewrite !Forall_cons, Forall_nil; ranges. Qed.
  Lemma cverts_ok p : inside Dc p -> Forall (inside Dv) (cverts p).
  Proof. destruct p as [[w h] l]; intros H; unfold cverts; rewrite !Forall_cons, Forall_nil; ranges. Qed.
  Lemma cedges_ok p : inside Dc p -> Forall (ok De) (cedges p).
  Proof. destruct p as [[w h] l]; intros H; unfold cedges; rewrite !Forall_cons, Forall_nil; ranges. Qed.
  Lemma cfaces_ok p : inside Dc p -> Forall (ok Df) (cfaces p).
  Proof. destruct p as [[w h] l]; intros H; unfold cfaces; rewrite !Forall_cons, Forall_nil; ranges. Qed.

  Lemma nv_inj p q : inside Dv p -> inside Dv q -> nv p = nv q -> p = q.
  Proof. intros Hp Hq E. apply (pos_inj Dv); [done|done|]. by apply Nat2N.inj. Qed.
  Lemma ne_inj i j : ok De i -> ok De j -> ne i = ne j -> i = j.
  Proof. intros Hp Hq E. apply (enc_inj De); [done|done|]. by apply Nat2N.inj. Qed.
  Lemma nf_inj i j : ok Df i -> ok Df j -> nf i = nf j -> i = j.
  Proof. intros Hp Hq E. apply (enc_inj Df); [done|done|]. by apply Nat2N.inj. Qed.

  Lemma NoDup_names {A} (f : A -> N) (P : A -> Prop) (l : list A) :
    (forall a b, P a -> P b -> f a = f b -> a = b) -> Forall P l -> NoDup l -> NoDup (f <$> l).
  Proof.
    intros Hf Hl Hn. induction Hn as [|a l Ha Hn IH]; [constructor|]. apply Forall_cons in Hl as [H1 H2]. cbn. constructor; [|by apply IH].
    intros (b & E & Hb)%elem_of_list_fmap. apply Ha. rewrite (Hf a b); [done|done| |done]. rewrite Forall_forall in H2. by apply H2.
  Qed.
  Lemma elem_names {A} (f : A -> N) (P : A -> Prop) (l : list A) a :
    (forall a b, P a -> P b -> f a = f b -> a = b) -> Forall P l -> P a -> f a ∈ f <$> l <-> a ∈ l.
  Proof.
    intros Hf Hl Ha. split; [|by apply elem_of_list_fmap_1]. intros (b & E & Hb)%elem_of_list_fmap. rewrite Forall_forall in Hl.
    rewrite (Hf a b); [done|done|by apply Hl|done].
  Qed.

  Ltac distinct := repeat (apply NoDup_cons; split; [rewrite ?elem_of_cons, ?elem_of_nil; cbn [step fst snd]; intros Hd;
    repeat (destruct Hd as [Hd|Hd]; [first [discriminate Hd | exfalso; inversion Hd; lia]|]); exact Hd|]); constructor.
  Lemma fverts_NoDup i : NoDup (fverts i).
  Proof. destruct i as [[] [[w h] l]]; unfold fverts; cbn [fst snd fdirs]; distinct. Qed.
  Lemma fedges_NoDup i : NoDup (fedges i).
  Proof. destruct i as [[] [[w h] l]]; unfold fedges; cbn [fst snd fdirs]; distinct. Qed.
  Lemma cverts_NoDup p : NoDup (cverts p).
  Proof. destruct p as [[w h] l]; unfold cverts; distinct. Qed.
  Lemma cedges_NoDup p : NoDup (cedges p).
  Proof. destruct p as [[w h] l]; unfold cedges; distinct. Qed.
  Lemma cfaces_NoDup p : NoDup (cfaces p).
  Proof. destruct p as [[w h] l]; unfold cfaces; distinct. Qed.

  (** Faces of a cell use its vertices and edges. *)
  Lemma face_verts_in p f v : f ∈ cfaces p -> v ∈ fverts f -> v ∈ cverts p.
  Proof.
    destruct p as [[w h] l]. unfold cfaces, cverts. rewrite !elem_of_cons, elem_of_nil.
    intros [->|[->|[->|[->|[->|[->|[]]]]]]]; unfold fverts; cbn [fst snd fdirs step]; rewrite !elem_of_cons, elem_of_nil; tauto.
  Qed.
  Lemma face_edges_in p f e : f ∈ cfaces p -> e ∈ fedges f -> e ∈ cedges p.
  Proof.
    destruct p as [[w h] l]. unfold cfaces, cedges. rewrite !elem_of_cons, elem_of_nil.
    intros [->|[->|[->|[->|[->|[->|[]]]]]]]; unfold fedges; cbn [fst snd fdirs step]; rewrite !elem_of_cons, elem_of_nil; tauto.
  Qed.
  Lemma vert_on_face p v : v ∈ cverts p -> exists f, f ∈ cfaces p /\ v ∈ fverts f.
  Proof.
    destruct p as [[w h] l]. unfold cfaces, cverts. intros H.
    assert (K : v ∈ fverts (W1, (w, h, l)) \/ v ∈ fverts (W1, step W3 (w, h, l))).
    { unfold fverts; cbn [fst snd fdirs step] in *. rewrite !elem_of_cons, elem_of_nil in *. tauto. }
    destruct K; eexists; (split; [|eassumption]); rewrite !elem_of_cons; tauto.
  Qed.
  (** The two faces of a cell at an edge: the same in all cells. *)
  Definition shift (p q : spot) : spot := (q.1.1 + p.1.1, q.1.2 + p.1.2, q.2 + p.2).
  Definition ishift (p : spot) (i : way * spot) : way * spot := (i.1, shift p i.2).
  Lemma ishift_inj p i j : ishift p i = ishift p j -> i = j.
  Proof.
    destruct i as [k [[a b] c]], j as [k' [[a' b'] c']]. unfold ishift, shift. cbn [fst snd]. intros [= -> E1 E2 E3].
    repeat f_equal; lia.
  Qed.
  Lemma fedges_shift p i : fedges (ishift p i) = ishift p <$> fedges i.
  Proof. destruct i as [[] [[a b] c]]; reflexivity. Qed.
  Lemma cedges_shift p : cedges p = ishift p <$> cedges (0, 0, 0).
  Proof. destruct p as [[w h] l]. reflexivity. Qed.
  Lemma cfaces_shift p : cfaces p = ishift p <$> cfaces (0, 0, 0).
  Proof. destruct p as [[w h] l]. reflexivity. Qed.
  Instance way_eq : EqDecision way.
  Proof. solve_decision. Defined.
  Lemma edge_two_faces0 : Forall (fun e => length (filter (fun f => e ∈ fedges f) (cfaces (0, 0, 0))) = 2) (cedges (0, 0, 0)).
  Proof. repeat (apply Forall_cons_2; [vm_compute; reflexivity|]). apply Forall_nil_2. Qed.
  Lemma edge_two_faces p e : e ∈ cedges p -> exists f g, f <> g /\ f ∈ cfaces p /\ g ∈ cfaces p /\
    forall f', f' ∈ cfaces p -> e ∈ fedges f' <-> f' = f \/ f' = g.
  Proof.
    rewrite cedges_shift. intros (e0 & -> & He)%elem_of_list_fmap. pose proof edge_two_faces0 as H. rewrite Forall_forall in H. specialize (H e0 He).
    destruct (filter (fun f => e0 ∈ fedges f) (cfaces (0, 0, 0))) as [|f [|g [|]]] eqn:E; try discriminate H.
    assert (K : forall f', f' ∈ [f; g] <-> e0 ∈ fedges f' /\ f' ∈ cfaces (0, 0, 0)) by (intros f'; rewrite <-E; by rewrite elem_of_list_filter).
    assert (Hn : NoDup [f; g]) by (rewrite <-E; apply NoDup_filter, cfaces_NoDup).
    apply NoDup_cons in Hn as [Hn _]. rewrite elem_of_list_singleton in Hn.
    assert (M : forall i, ishift p i ∈ cfaces p <-> i ∈ cfaces (0, 0, 0)).
    { intros i. rewrite cfaces_shift. split; [|by apply elem_of_list_fmap_1]. intros (j & Ej%ishift_inj & ?)%elem_of_list_fmap. by subst. }
    assert (Q : forall i, ishift p e0 ∈ fedges (ishift p i) <-> e0 ∈ fedges i).
    { intros i. rewrite fedges_shift. split; [|by apply elem_of_list_fmap_1]. intros (j & Ej%ishift_inj & ?)%elem_of_list_fmap. by subst. }
    exists (ishift p f), (ishift p g). split; [intros ?%ishift_inj; done|]. rewrite !M. split; [apply K; set_solver|]. split; [apply K; set_solver|].
    intros f' Hf'. rewrite cfaces_shift in Hf'. apply elem_of_list_fmap in Hf' as (i & -> & Hi). rewrite Q. split.
    - intros Hin. assert (Hi' : i ∈ [f; g]) by (apply K; done). rewrite !elem_of_cons, elem_of_nil in Hi'. destruct Hi' as [->|[->|[]]]; tauto.
    - intros [->%ishift_inj| ->%ishift_inj]; apply K; set_solver.
  Qed.

  (** ** Conformity of the lists *)
  Notation p1 := (fam De edata).
  Notation p2 := (fam Df fdata).
  Notation p3 := (cdata <$> grid3 z y x).

  Lemma box_closed : lclosed p1 p2 4.
  Proof.
    intros c q (i & Hi & -> & ->)%fam_inv. destruct i as [k p]. cbn [fst snd]. unfold fdata. cbn [fst snd]. rewrite !fmap_length.
    split; [by destruct k|]. split; [by destruct k|].
    split; [eapply NoDup_names; [apply nv_inj|by apply fverts_ok|apply fverts_NoDup]|].
    split; [eapply NoDup_names; [apply ne_inj|by apply fedges_ok|apply fedges_NoDup]|].
    assert (J : forall e, ok De e -> ljoins p1 (ne e) (nv e.2) (nv (step e.1 e.2)) /\ ljoins p1 (ne e) (nv (step e.1 e.2)) (nv e.2)).
    { intros e He. pose proof (fam_lookup De edata e He) as L. unfold edata in L. split; exists (emark e.1 e.2); unfold ne; rewrite Nat2N.id; [by left|by right]. }
    pose proof (fedges_ok (k, p) Hi) as Hok. unfold fedges, fverts in *. cbn [fst snd] in *. destruct (fdirs k) as [a b] eqn:Ek.
    rewrite !Forall_cons in Hok. destruct Hok as (O1 & O2 & O3 & O4 & _).
    intros v va vb e. cbn [fmap list_fmap].
    destruct v as [|[|[|[|v]]]]; [..|done]; cbn [Nat.add lookup list_lookup]; rewrite ?Nat.mod_small, ?Nat.mod_same by lia; cbn [lookup list_lookup];
      intros Ka Kb Ke; apply Some_inj in Ka, Kb, Ke; subst va vb e.
    - exact (proj1 (J _ O1)).
    - exact (proj1 (J _ O2)).
    - assert (C : step b (step a p) = step a (step b p)) by (by destruct k; injection Ek as <- <-). rewrite C. exact (proj2 (J _ O3)).
    - exact (proj2 (J _ O4)).
  Qed.

  Lemma step_inside e : ok De e -> inside Dv e.2 /\ inside Dv (step e.1 e.2).
  Proof. destruct e as [[] [[w h] l]]; ranges. Qed.
  Lemma box_simple : lsimple (vol Dv) p1.
  Proof.
    split.
    - intros e q (i & Hi & -> & ->)%fam_inv. destruct (step_inside i Hi) as [S1 S2]. destruct i as [k p]. unfold edata. cbn [fst snd] in *.
      unfold nv at 3 4. rewrite !Nat2N.id. split; [|split; by apply pos_lt].
      intros E%nv_inj; [|done..]. destruct k, p as [[w h] l]; cbn [step fst snd] in E; inversion E; lia.
    - intros e f q r (i & Hi & -> & ->)%fam_inv (j & Hj & -> & ->)%fam_inv. destruct (step_inside i Hi) as [S1 S2]. destruct (step_inside j Hj) as [S3 S4].
      destruct i as [k p], j as [k' p']. unfold edata. cbn [fst snd] in *.
      intros [[K1 K2]%pair_equal_spec|[K1 K2]]; (apply nv_inj in K1; [|done..]); (apply nv_inj in K2; [|done..]); apply f_equal; clear Hi Hj S1 S2 S3 S4;
        destruct k, k', p as [[w h] l], p' as [[w' h'] l']; cbn [step fst snd] in *; inversion K1; inversion K2; first [lia | f_equal; congruence].
  Qed.

  Lemma all_below_names {A} (f : A -> nat) n (l : list A) : Forall (fun a => f a < n) l -> all_below n ((fun a => N.of_nat (f a)) <$> l).
  Proof. intros H. unfold all_below. rewrite Forall_fmap. eapply Forall_impl; [exact H|]. cbn. intros a ?. lia. Qed.
  Lemma box_below : Forall (polygon_below (vol Dv) (length p1)) p2.
  Proof.
    apply Forall_lookup. intros c q (i & Hi & -> & ->)%fam_inv. destruct i as [k p]. unfold polygon_below, fdata. cbn [fst snd]. split.
    - apply (all_below_names (pos Dv)). eapply Forall_impl; [apply (fverts_ok _ Hi)|]. intros a. apply pos_lt.
    - apply (all_below_names (enc De)). eapply Forall_impl; [apply (fedges_ok _ Hi)|]. intros a. apply enc_lt.
  Qed.
  Lemma cells_inv c q : p3 !! c = Some q <-> exists p, inside Dc p /\ c = pos Dc p /\ q = cdata p.
  Proof.
    split.
    - intros H. apply list_lookup_fmap_inv in H as (p & -> & H). apply grid3_lookup in H as (H1 & H2 & H3 & ->). by exists p.
    - intros (p & Hp & -> & ->). rewrite list_lookup_fmap. pose proof (grid3_at Dc p Hp) as G. unfold Dc in *. cbn [fst snd] in G. by rewrite G.
  Qed.
  Lemma box_below3 : Forall (fun q => all_below (vol Dv) (ph_v q.1) /\ all_below (length p1) (ph_e q.1) /\ all_below (length p2) (ph_f q.1)) p3.
  Proof.
    apply Forall_lookup. intros c q (p & Hp & -> & ->)%cells_inv. unfold cdata. cbn [fst snd ph_v ph_e ph_f]. split; [|split].
    - apply (all_below_names (pos Dv)). eapply Forall_impl; [apply (cverts_ok _ Hp)|]. intros a. apply pos_lt.
    - apply (all_below_names (enc De)). eapply Forall_impl; [apply (cedges_ok _ Hp)|]. intros a. apply enc_lt.
    - apply (all_below_names (enc Df)). eapply Forall_impl; [apply (cfaces_ok _ Hp)|]. intros a. apply enc_lt.
  Qed.
  Lemma box_balanced : Forall balanced p2.
  Proof. apply Forall_lookup. intros c q (i & Hi & -> & ->)%fam_inv. destruct i as [[] p]; done. Qed.

  (** Cells at a face. *)
  Definition lbounds (f c : nat) : Prop := exists q, p3 !! c = Some q /\ N.of_nat f ∈ ph_f q.1.
  Definition last (k : way) : nat := match k with W1 => z | W2 => y | W3 => x end.
  Definition normal (k : way) : way := match k with W1 => W3 | W2 => W2 | W3 => W1 end.
  Definition level (k : way) (p : spot) : nat := match k with W1 => p.1.1 | W2 => p.1.2 | W3 => p.2 end.
  Definition back (k : way) (p : spot) : spot :=
    match k with W1 => (p.1.1 - 1, p.1.2, p.2) | W2 => (p.1.1, p.1.2 - 1, p.2) | W3 => (p.1.1, p.1.2, p.2 - 1) end.
  Lemma lbounds_iff k p c : ok Df (k, p) -> lbounds (enc Df (k, p)) c <->
    (level k p < last k /\ c = pos Dc p) \/ (0 < level k p /\ c = pos Dc (back k p)).
  Proof.
    intros Hi. split.
    - intros (q & (p' & Hp & -> & ->)%cells_inv & H). unfold cdata in H. cbn [fst snd ph_f] in H.
      apply (elem_names nf (ok Df)) in H; [|apply nf_inj|by apply cfaces_ok|done].
      unfold cfaces in H. rewrite !elem_of_cons, elem_of_nil in H.
      destruct p as [[w h] l], p' as [[w' h'] l'].
      destruct H as [H|[H|[H|[H|[H|[H|[]]]]]]]; injection H as -> E1 E2 E3; cbn [step fst snd] in *; subst; cbn [level last back fst snd];
        first [left; split; [ranges|done] | right; split; [lia|]; f_equal; repeat f_equal; lia].
    - assert (X : forall p', inside Dc p' -> (k, p) ∈ cfaces p' -> lbounds (enc Df (k, p)) (pos Dc p')).
      { intros p' Hp H. exists (cdata p'). split; [apply cells_inv; by exists p'|]. unfold cdata. cbn [fst snd ph_f]. change (N.of_nat (enc Df (k, p))) with (nf (k, p)).
        by apply elem_of_list_fmap_1. }
      destruct p as [[w h] l].
      intros [[H ->]|[H ->]]; apply X; unfold cfaces; rewrite ?elem_of_cons; destruct k; cbn [level last back step fst snd] in *; try ranges.
      + tauto. + tauto. + tauto.
      + right; left. do 3 f_equal. lia.
      + do 3 right; left. do 3 f_equal. lia.
      + do 5 right; left. do 2 f_equal. lia.
  Qed.
  Lemma fmark_zero k p : ok Df (k, p) -> (fmark k p =? 0)%N = negb (level k p =? 0) && negb (level k p =? last k).
  Proof.
    destruct k, p as [[w h] l]; intros H; unfold fmark, level, last, place_of; cbn [fst snd];
      repeat match goal with |- context [?a =? ?b] => destruct (Nat.eqb_spec a b) end; try reflexivity; lia.
  Qed.
  Lemma box_shared f q : p2 !! f = Some q -> exists cs, NoDup cs /\ (forall c, c ∈ cs <-> lbounds f c) /\
    length cs = if (q.2 =? 0)%N then 2 else 1.
  Proof.
    intros (i & Hi & -> & ->)%fam_inv. destruct i as [k p]. cbn [fst snd fdata]. rewrite (fmark_zero k p Hi).
    assert (L : level k p <= last k) by (destruct k, p as [[w h] l]; unfold level, last; ranges).
    assert (L0 : 0 < last k) by (by destruct k).
    destruct (Nat.eqb_spec (level k p) 0) as [H0|H0]; [|destruct (Nat.eqb_spec (level k p) (last k)) as [H1|H1]]; cbn [negb andb].
    - apply (one_cell _ (pos Dc p)). intros d. rewrite lbounds_iff by done. split; [intros [[_ ?]|[? _]]; [done|lia]|intros ->; left; split; [lia|done]].
    - apply (one_cell _ (pos Dc (back k p))). intros d. rewrite lbounds_iff by done. split; [intros [[? _]|[_ ?]]; [lia|done]|intros ->; right; split; [lia|done]].
    - apply (two_cells _ (pos Dc p) (pos Dc (back k p))).
      + intros E. apply pos_inj in E; [|destruct k, p as [[w h] l]; unfold level, last, back in *; ranges..].
        destruct k, p as [[w h] l]; cbn [back fst snd level] in *; inversion E; lia.
      + intros d. rewrite lbounds_iff by done. split; [tauto|intros [->| ->]; [left|right]; (split; [lia|done])].
  Qed.
End box.
