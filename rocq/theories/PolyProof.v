From Coq Require Import QArith Qcanon.
From Verif Require Import Base QcTac FillModel GeoModel MapModel PointModel PointSpec PointProof PolyModel PolySpec.
Local Open Scope Qc_scope.

(** ** Sums along closed polygons *)

Fixpoint path_sum (f : vec3 -> vec3 -> Qc) (l : list vec3) : Qc :=
  match l with
  | a :: (b :: _) as l' => f a b + path_sum f l'
  | _ => 0
  end.
Definition closed_sum (f : vec3 -> vec3 -> Qc) (vs : list vec3) : Qc :=
  match vs with [] => 0 | a :: l => path_sum f (a :: l ++ [a]) end.

Lemma path_sum_cons2 f a b l : path_sum f (a :: b :: l) = f a b + path_sum f (b :: l).
Proof. done. Qed.
Lemma path_sum_app f l x m : path_sum f (l ++ x :: m) = path_sum f (l ++ [x]) + path_sum f (x :: m).
Proof.
  induction l as [|a l IH]; [cbn; ring|]. destruct l as [|b l].
  - cbn. ring.
  - cbn [app] in *. rewrite !path_sum_cons2, IH. ring.
Qed.
Lemma closed_sum_rotate1 f a l : closed_sum f (a :: l) = closed_sum f (l ++ [a]).
Proof.
  destruct l as [|b l]; [done|]. cbn [closed_sum app].
  replace ((l ++ [a]) ++ [b]) with (l ++ a :: [b]) by (by rewrite <- app_assoc).
  change (b :: l ++ a :: [b]) with ((b :: l) ++ a :: [b]). rewrite (path_sum_app f (b :: l) a [b]).
  rewrite path_sum_cons2. cbn [app path_sum]. ring.
Qed.
Lemma closed_sum_rotate f l m : closed_sum f (l ++ m) = closed_sum f (m ++ l).
Proof.
  revert m. induction l as [|a l IH]; intros m; [by rewrite app_nil_r|].
  cbn [app]. rewrite closed_sum_rotate1. rewrite <- app_assoc, IH. by rewrite <- app_assoc.
Qed.

Definition antisymmetric (f : vec3 -> vec3 -> Qc) : Prop := forall a b, f b a = - f a b.
Definition around (f : vec3 -> vec3 -> Qc) (t : triangle) : Qc := f t.1.1 t.1.2 + f t.1.2 t.2 + f t.2 t.1.1.

Lemma antisymmetric_same f a : antisymmetric f -> f a a = 0.
Proof. intros A. specialize (A a a). qlra. Qed.
Lemma path_sum_reverse f l : antisymmetric f -> path_sum f (reverse l) = - path_sum f l.
Proof.
  intros A. induction l as [|a l IH]; [cbn; ring|]. destruct l as [|b l]; [cbn; ring|].
  rewrite path_sum_cons2. rewrite !reverse_cons in *. rewrite <- app_assoc. cbn [app].
  rewrite path_sum_app, IH. cbn. rewrite (A a b). ring.
Qed.
Lemma closed_sum_reverse f vs : antisymmetric f -> closed_sum f (reverse vs) = - closed_sum f vs.
Proof.
  intros A. destruct vs as [|a l]; [cbn; ring|]. rewrite reverse_cons. rewrite <- closed_sum_rotate1.
  cbn [closed_sum]. rewrite <- path_sum_reverse by done. f_equal.
  rewrite reverse_cons, reverse_app. done.
Qed.
Lemma closed_sum_cut f a l b m : antisymmetric f ->
  closed_sum f (a :: l ++ b :: m) = closed_sum f (a :: l ++ [b]) + closed_sum f (b :: m ++ [a]).
Proof.
  intros A. cbn [closed_sum]. rewrite <- !app_assoc. cbn [app].
  change (a :: l ++ b :: m ++ [a]) with ((a :: l) ++ b :: m ++ [a]). rewrite (path_sum_app f (a :: l) b).
  change (a :: l ++ [b; a]) with ((a :: l) ++ b :: [a]). rewrite (path_sum_app f (a :: l) b [a]).
  change (b :: m ++ [a; b]) with ((b :: m) ++ a :: [b]). rewrite (path_sum_app f (b :: m) a [b]).
  change (path_sum f [b; a]) with (f b a + 0). change (path_sum f [a; b]) with (f a b + 0). rewrite (A a b).
  cbn [app]. ring.
Qed.
Lemma sum_of_app {A} (f : A -> Qc) l m : sum_of f (l ++ m) = sum_of f l + sum_of f m.
Proof. unfold sum_of. induction l as [|a l IH]; cbn; [ring|]. rewrite IH. ring. Qed.
Lemma sum_of_ext {A} (f h : A -> Qc) l : (forall x, f x = h x) -> sum_of f l = sum_of h l.
Proof. unfold sum_of. intros E. induction l as [|a l IH]; cbn; [done|]. by rewrite E, IH. Qed.
Lemma sum_of_scale {A} k (f : A -> Qc) l : sum_of (fun x => k * f x) l = k * sum_of f l.
Proof.
  unfold sum_of. induction l as [|a l IH]; cbn; [ring|]. rewrite IH. ring.
Qed.

Lemma closed_sum_cuts f vs ts : antisymmetric f -> cuts vs ts -> closed_sum f vs = sum_of (around f) ts.
Proof.
  intros A. induction 1 as [a b c|a l ts _ IH|a l b m ts us _ _ _ IH1 _ IH2].
  - cbn. unfold around. cbn. ring.
  - by rewrite closed_sum_rotate1.
  - rewrite closed_sum_cut, sum_of_app, IH1, IH2 by done. done.
Qed.
Lemma sum_of_cons {A} (f : A -> Qc) a l : sum_of f (a :: l) = f a + sum_of f l.
Proof. done. Qed.
Lemma fan_cons2 p a b l : fan p (a :: b :: l) = (p, a, b) :: fan p (b :: l).
Proof. done. Qed.
Lemma path_sum_fan f p l x : antisymmetric f ->
  sum_of (around f) (fan p (x :: l)) = path_sum f (x :: l) + f p x - f p (List.last (x :: l) x).
Proof.
  intros A. revert x. induction l as [|b l IH]; intros x; [cbn; ring|].
  rewrite path_sum_cons2, fan_cons2, sum_of_cons, IH.
  unfold around. cbn [fst snd].
  replace (List.last (x :: b :: l) x) with (List.last (b :: l) b); [rewrite (A p b); ring|].
  clear. cbn. destruct l as [|c l]; [done|]. revert c. induction l as [|d l IH]; intros c; [done|]. apply IH.
Qed.
Lemma closed_sum_fan f p vs : antisymmetric f -> closed_sum f vs = sum_of (around f) (fan_closed p vs).
Proof.
  intros A. destruct vs as [|a l]; [done|]. cbn [closed_sum fan_closed].
  rewrite path_sum_fan by done.
  replace (List.last (a :: l ++ [a]) a) with a; [ring|].
  change (a :: l ++ [a]) with ((a :: l) ++ [a]). by rewrite last_last.
Qed.

Lemma path_sum_map (k : Qc) f h phi (e : vec3 -> Qc) l x : (forall a b, f (phi a) (phi b) = k * h a b + e b - e a) ->
  path_sum f (phi <$> (x :: l)) = k * path_sum h (x :: l) + e (List.last (x :: l) x) - e x.
Proof.
  intros E. revert x. induction l as [|b l IH]; intros x; [cbn; ring|].
  rewrite path_sum_cons2. rewrite !fmap_cons, path_sum_cons2, <- fmap_cons, IH, E.
  replace (List.last (x :: b :: l) x) with (List.last (b :: l) b); [ring|].
  clear. cbn. destruct l as [|c l]; [done|]. revert c. induction l as [|d l IH]; intros c; [done|]. apply IH.
Qed.
(** [f] of the images is [k] times [h] up to a difference. *)
Lemma closed_sum_map (k : Qc) f h phi (e : vec3 -> Qc) vs : (forall a b, f (phi a) (phi b) = k * h a b + e b - e a) ->
  closed_sum f (phi <$> vs) = k * closed_sum h vs.
Proof.
  intros E. destruct vs as [|a l]; [cbn; ring|].
  transitivity (path_sum f (phi <$> (a :: l ++ [a]))).
  { rewrite !fmap_cons, fmap_app. done. }
  cbn [closed_sum]. rewrite (path_sum_map k f h phi e) by done.
  replace (List.last (a :: l ++ [a]) a) with a; [ring|].
  change (a :: l ++ [a]) with ((a :: l) ++ [a]). by rewrite last_last.
Qed.

(** ** The sums of the code *)

Lemma qsum_zip f a l z : qsum (zip_with f (a :: l) (l ++ [z])) = path_sum f (a :: l ++ [z]).
Proof.
  revert a. induction l as [|b l IH]; intros a; [cbn; ring|].
  cbn [app zip_with]. rewrite path_sum_cons2, <- IH. done.
Qed.
Lemma zip_edges {B} (f : vec3 -> vec3 -> B) a l :
  (fun v => f (vnth (a :: l) v) (vnth (a :: l) ((v + 1) mod length (a :: l)))) <$> seq 0 (length (a :: l)) =
  zip_with f (a :: l) (l ++ [a]).
Proof.
  apply list_eq. intros i. destruct (decide (i < length (a :: l))%nat) as [L|L].
  - rewrite list_lookup_fmap, lookup_seq_lt by done. cbn [fmap option_fmap option_map Nat.add].
    symmetry. apply lookup_zip_with_Some. exists (vnth (a :: l) i), (vnth (a :: l) ((i + 1) mod length (a :: l))).
    split; [done|]. split.
    + unfold vnth. destruct ((a :: l) !! i) eqn:E; [|apply lookup_ge_None in E; lia]. by rewrite (nth_lookup_Some _ _ _ _ E).
    + destruct (decide (i = length l)) as [-> |N].
      * rewrite lookup_app_r, Nat.sub_diag by lia. cbn [length]. rewrite Nat.add_1_r, Nat.mod_same by lia. done.
      * cbn [length] in *. rewrite Nat.mod_small by lia. rewrite lookup_app_l by lia.
        replace (i + 1)%nat with (S i) by lia. unfold vnth. cbn [nth].
        destruct (l !! i) eqn:E; [|apply lookup_ge_None in E; lia]. by rewrite (nth_lookup_Some _ _ _ _ E).
  - rewrite lookup_ge_None_2 by (rewrite fmap_length, seq_length; lia).
    symmetry. apply lookup_ge_None_2. rewrite zip_with_length, app_length. cbn [length] in *. lia.
Qed.
Lemma sum_edges_closed f vs : sum_edges f vs = closed_sum f vs.
Proof.
  destruct vs as [|a l]; [done|]. unfold sum_edges. rewrite (zip_edges f). apply qsum_zip.
Qed.

Lemma accepted_iff g vs : accepted g vs <-> require_polygon_2D g vs = Ok tt.
Proof.
  unfold accepted, require_polygon_2D, PointsAre2D. destruct vs as [|a l].
  { cbn. split; [intros [? _]; lia|done]. }
  cbn [length Nat.eqb negb require mbind outcome_bind].
  destruct (forallb _ _) eqn:E.
  - assert (Forall (fun p : vec3 => qabs p.2 <= cfgTolerance1D g) (a :: l)) as F.
    { apply Forall_forall. intros x H. rewrite forallb_forall in E. apply elem_of_list_In in H. apply E in H.
      by destruct (qle_spec (qabs x.2) (cfgTolerance1D g)). }
    cbn [andb]. destruct (Nat.ltb_spec 2 (S (length l))); cbn [require]; split; intros; try done; try (by destruct_and!; lia).
  - split; [|done]. intros [_ F]. apply not_true_iff_false in E. exfalso. apply E. apply forallb_forall.
    intros x H. apply elem_of_list_In in H. rewrite Forall_forall in F. specialize (F x H). cbn in F.
    by destruct (qle_spec (qabs x.2) (cfgTolerance1D g)).
Qed.
Lemma require_polygon_cases g vs : require_polygon_2D g vs = Ok tt \/ require_polygon_2D g vs = Abort.
Proof.
  unfold require_polygon_2D, PointsAre2D. destruct vs as [|a l]; [by right|]. cbn [length Nat.eqb negb require mbind outcome_bind].
  destruct (_ && _); [by left|by right].
Qed.

Definition wedge (a b : vec3) : Qc := a.1.1 * b.1.2 - b.1.1 * a.1.2.
Lemma wedge_antisymmetric : antisymmetric wedge.
Proof. intros a b. unfold wedge. ring. Qed.
Lemma wedge_around t : around wedge t = orient t.1.1 t.1.2 t.2.
Proof. unfold around, wedge, orient. ring. Qed.
Definition wedge_x (a b : vec3) : Qc := (a.1.1 + b.1.1) * wedge a b.
Definition wedge_y (a b : vec3) : Qc := (a.1.2 + b.1.2) * wedge a b.
Lemma wedge_x_antisymmetric : antisymmetric wedge_x.
Proof. intros a b. unfold wedge_x, wedge. ring. Qed.
Lemma wedge_y_antisymmetric : antisymmetric wedge_y.
Proof. intros a b. unfold wedge_y, wedge. ring. Qed.
Lemma half_two : half + half = 1.
Proof. apply Qc_is_canon. vm_compute. reflexivity. Qed.
Lemma third_three : third + third + third = 1.
Proof. apply Qc_is_canon. vm_compute. reflexivity. Qed.
Definition six : Qc := Q2Qc (6 # 1).
Lemma six_half_third : six * half * third = 1.
Proof. apply Qc_is_canon. vm_compute. reflexivity. Qed.
Lemma wedge_x_around t : around wedge_x t = six * (area t * (center t).1.1).
Proof.
  unfold area, center. transitivity ((six * half * third) * (orient t.1.1 t.1.2 t.2 * (t.1.1.1.1 + t.1.2.1.1 + t.2.1.1))).
  - rewrite six_half_third. unfold around, wedge_x, wedge, orient. ring.
  - unfold vscale, vadd. cbn [fst snd]. ring.
Qed.
Lemma wedge_y_around t : around wedge_y t = six * (area t * (center t).1.2).
Proof.
  unfold area, center. transitivity ((six * half * third) * (orient t.1.1 t.1.2 t.2 * (t.1.1.1.2 + t.1.2.1.2 + t.2.1.2))).
  - rewrite six_half_third. unfold around, wedge_y, wedge, orient. ring.
  - unfold vscale, vadd. cbn [fst snd]. ring.
Qed.
Lemma total_area_wedge ts : total_area ts = half * sum_of (around wedge) ts.
Proof.
  unfold total_area. rewrite <- sum_of_scale. apply sum_of_ext. intros t. by rewrite wedge_around.
Qed.
Lemma moment_x_wedge ts : six * moment_x ts = sum_of (around wedge_x) ts.
Proof. unfold moment_x. rewrite <- sum_of_scale. apply sum_of_ext. intros t. by rewrite wedge_x_around. Qed.
Lemma moment_y_wedge ts : six * moment_y ts = sum_of (around wedge_y) ts.
Proof. unfold moment_y. rewrite <- sum_of_scale. apply sum_of_ext. intros t. by rewrite wedge_y_around. Qed.

Lemma qsum_zip_minus {A B} (f h : A -> B -> Qc) l m :
  qsum (zip_with f l m) - qsum (zip_with h l m) = qsum (zip_with (fun a b => f a b - h a b) l m).
Proof.
  unfold qsum. revert m. induction l as [|a l IH]; intros m; [cbn; ring|]. destruct m as [|b m]; [cbn; ring|].
  cbn. rewrite <- IH. ring.
Qed.
Lemma zip_with_maps {A B C D E} (f : C -> D -> E) (u : A -> C) (v : B -> D) l m :
  zip_with f (u <$> l) (v <$> m) = zip_with (fun a b => f (u a) (v b)) l m.
Proof. revert m. induction l as [|a l IH]; intros [|b m]; try done. cbn. f_equal. apply IH. Qed.
Lemma zip_with_swap {A B C} (f : A -> B -> C) l m : zip_with f l m = zip_with (fun b a => f a b) m l.
Proof. revert m. induction l as [|a l IH]; intros [|b m]; try done. cbn. f_equal. apply IH. Qed.
Lemma area_formula g vs : accepted g vs -> PolygonArea g vs = Ok (half * closed_sum wedge vs).
Proof.
  intros A. unfold PolygonArea. rewrite (proj1 (accepted_iff g vs) A). cbn [mbind outcome_bind]. cbn zeta.
  destruct A as [L _]. destruct vs as [|a l]; [cbn in L; lia|]. f_equal. f_equal.
  cbn [vnth nth].
  assert (forall h : vec3 -> Qc, take (length (a :: l)) ((h <$> a :: l) ++ [h a]) = h <$> a :: l) as T1.
  { intros h. rewrite <- (fmap_length h). apply take_app. }
  assert (forall h : vec3 -> Qc, take (length (a :: l)) (drop 1 ((h <$> a :: l) ++ [h a])) = h <$> (l ++ [a])) as T2.
  { intros h. rewrite fmap_cons. cbn [app drop]. rewrite fmap_app. apply take_ge. rewrite app_length, fmap_length. cbn. lia. }
  rewrite (T1 (fun v => v.1.1)), (T1 (fun v => v.1.2)), (T2 (fun v => v.1.1)), (T2 (fun v => v.1.2)).
  unfold qdot. rewrite !zip_with_maps.
  rewrite (zip_with_swap _ (l ++ [a]) (a :: l)).
  rewrite qsum_zip_minus. apply (qsum_zip wedge).
Qed.
Lemma centroid_formula g vs A : accepted g vs ->
  PolygonCentroid g vs A = Ok (closed_sum wedge_x vs / (six * A), closed_sum wedge_y vs / (six * A), 0 / (six * A)).
Proof.
  intros V. unfold PolygonCentroid. rewrite (proj1 (accepted_iff g vs) V). cbn [mbind outcome_bind]. cbn zeta.
  rewrite !sum_edges_closed. done.
Qed.

(** ** Area *)

Lemma area_cuts g vs ts : accepted g vs -> cuts vs ts -> PolygonArea g vs = Ok (total_area ts).
Proof.
  intros A C. rewrite area_formula, total_area_wedge by done.
  by rewrite (closed_sum_cuts wedge vs ts wedge_antisymmetric C).
Qed.
Lemma area_fan g vs p : accepted g vs -> PolygonArea g vs = Ok (total_area (fan_closed p vs)).
Proof.
  intros A. rewrite area_formula, total_area_wedge by done. by rewrite (closed_sum_fan wedge p vs wedge_antisymmetric).
Qed.
Lemma accepted_permutation g vs ws : vs ≡ₚ ws -> accepted g vs -> accepted g ws.
Proof. intros P [L F]. split; [by rewrite <- P|by rewrite <- P]. Qed.
Lemma area_rotate g l m : accepted g (l ++ m) -> PolygonArea g (m ++ l) = PolygonArea g (l ++ m).
Proof.
  intros A. rewrite !area_formula; [|done || (apply (accepted_permutation g (l ++ m)); [apply Permutation_app_comm|done])..].
  by rewrite closed_sum_rotate.
Qed.
Lemma area_reverse g vs A : accepted g vs -> PolygonArea g vs = Ok A -> PolygonArea g (reverse vs) = Ok (- A).
Proof.
  intros V. rewrite !area_formula; [|done || (apply (accepted_permutation g vs); [symmetry; apply reverse_Permutation|done])..].
  intros [= <-]. rewrite closed_sum_reverse by apply wedge_antisymmetric. f_equal. ring.
Qed.
Lemma accepted_map g vs phi : (forall p, (phi p).2 = p.2) -> accepted g vs -> accepted g (phi <$> vs).
Proof.
  intros E [L F]. split; [by rewrite fmap_length|]. apply Forall_fmap. eapply Forall_impl; [exact F|].
  intros p H. cbn. by rewrite E.
Qed.
Lemma area_map g vs A a b c d t : accepted g vs -> PolygonArea g vs = Ok A ->
  PolygonArea g (plane_map a b c d t <$> vs) = Ok ((a * d - b * c) * A).
Proof.
  intros V. rewrite !area_formula; [|done || by apply accepted_map..].
  intros [= <-]. f_equal.
  rewrite (closed_sum_map (a * d - b * c) wedge wedge _
    (fun p => t.1.1 * (c * p.1.1 + d * p.1.2) - t.1.2 * (a * p.1.1 + b * p.1.2))); [ring|].
  intros u v. unfold wedge, plane_map. cbn [fst snd]. ring.
Qed.

(** The sum of the absolute areas, when all the triangles turn counterclockwise. *)
Lemma total_absolute ts : Forall (fun t => 0 <= area t) ts -> total_area ts = sum_of (fun t => qabs (area t)) ts.
Proof.
  induction 1 as [|t ts H _ IH]; [done|]. unfold total_area in *. rewrite !sum_of_cons, IH. f_equal. qcases; [done|qlra].
Qed.

(** ** Centroid *)

Lemma centroid_moments g vs A c ts : accepted g vs -> PolygonArea g vs = Ok A -> A <> 0 -> PolygonCentroid g vs A = Ok c ->
  cuts vs ts \/ (exists p, ts = fan_closed p vs) -> A * c.1.1 = moment_x ts /\ A * c.1.2 = moment_y ts /\ c.2 = 0.
Proof.
  intros V HA NZ. rewrite centroid_formula by done. intros [= <-] C.
  assert (six <> 0) as S by (unfold six; done).
  assert (closed_sum wedge_x vs = six * moment_x ts) as ->.
  { rewrite moment_x_wedge. destruct C as [C|[p ->]].
    - by apply closed_sum_cuts; [apply wedge_x_antisymmetric|].
    - apply closed_sum_fan, wedge_x_antisymmetric. }
  assert (closed_sum wedge_y vs = six * moment_y ts) as ->.
  { rewrite moment_y_wedge. destruct C as [C|[p ->]].
    - by apply closed_sum_cuts; [apply wedge_y_antisymmetric|].
    - apply closed_sum_fan, wedge_y_antisymmetric. }
  cbn [fst snd]. split_and!; field; done.
Qed.
Lemma centroid_ok g vs A : accepted g vs -> exists c, PolygonCentroid g vs A = Ok c.
Proof. intros V. rewrite centroid_formula by done. eauto. Qed.

Lemma fan_map phi p l : fan (phi p) (phi <$> l) = (fun t : triangle => (phi t.1.1, phi t.1.2, phi t.2)) <$> fan p l.
Proof.
  induction l as [|a l IH]; [done|]. destruct l as [|b l]; [done|].
  rewrite fan_cons2, !fmap_cons, fan_cons2. rewrite <- fmap_cons, IH. done.
Qed.
Lemma fan_closed_map phi p vs :
  fan_closed (phi p) (phi <$> vs) = (fun t : triangle => (phi t.1.1, phi t.1.2, phi t.2)) <$> fan_closed p vs.
Proof.
  destruct vs as [|a l]; [done|]. unfold fan_closed. rewrite <- fan_map. rewrite !fmap_cons, fmap_app. done.
Qed.
Lemma sum_of_fmap {A B} (f : B -> Qc) (h : A -> B) l : sum_of f (h <$> l) = sum_of (fun x => f (h x)) l.
Proof. unfold sum_of. induction l as [|a l IH]; cbn; [done|]. by rewrite IH. Qed.
Lemma sum_of_plus {A} (f h : A -> Qc) l : sum_of (fun x => f x + h x) l = sum_of f l + sum_of h l.
Proof. unfold sum_of. induction l as [|a l IH]; cbn; [ring|]. rewrite IH. ring. Qed.
Lemma area_plane_map a b c d t (x : triangle) : let phi := plane_map a b c d t in
  area (phi x.1.1, phi x.1.2, phi x.2) = (a * d - b * c) * area x.
Proof. cbn zeta. unfold area, orient, plane_map. cbn [fst snd]. ring. Qed.
Lemma center_plane_map a b c d t (x : triangle) : let phi := plane_map a b c d t in
  center (phi x.1.1, phi x.1.2, phi x.2) = phi (center x).
Proof.
  cbn zeta. unfold center, plane_map, vscale, vadd. cbn [fst snd]. pose proof third_three as T.
  apply vec_eq; cbn [fst snd].
  - transitivity (a * (third * (x.1.1.1.1 + x.1.2.1.1 + x.2.1.1)) + b * (third * (x.1.1.1.2 + x.1.2.1.2 + x.2.1.2)) +
      (third + third + third) * t.1.1); [ring|]. rewrite T. ring.
  - transitivity (c * (third * (x.1.1.1.1 + x.1.2.1.1 + x.2.1.1)) + d * (third * (x.1.1.1.2 + x.1.2.1.2 + x.2.1.2)) +
      (third + third + third) * t.1.2); [ring|]. rewrite T. ring.
  - ring.
Qed.
Lemma Ok_inj' {A} (x y : A) : Ok x = Ok y -> x = y.
Proof. by intros [= ->]. Qed.
Lemma cancel_left (k a b : Qc) : k <> 0 -> k * a = k * b -> a = b.
Proof. intros N E. replace a with (k * a / k) by (field; done). rewrite E. field. done. Qed.
Lemma centroid_map g vs A c a b d e t : accepted g vs -> PolygonArea g vs = Ok A -> A <> 0 -> a * e - b * d <> 0 ->
  PolygonCentroid g vs A = Ok c ->
  PolygonCentroid g (plane_map a b d e t <$> vs) ((a * e - b * d) * A) = Ok (plane_map a b d e t c).
Proof.
  intros V HA NZ D HC.
  set (phi := plane_map a b d e t) in *.
  assert (accepted g (phi <$> vs)) as V' by (by apply accepted_map).
  pose proof (area_map g vs A a b d e t V HA) as HA'. fold phi in HA'.
  assert ((a * e - b * d) * A <> 0) as NZ' by (intros Z; apply Qcmult_integral in Z; tauto).
  destruct (centroid_ok g (phi <$> vs) ((a * e - b * d) * A) V') as [c' HC'].
  rewrite HC'. f_equal.
  set (o := (0, 0, 0) : vec3).
  destruct (centroid_moments g vs A c (fan_closed o vs) V HA NZ HC) as (X & Y & Z); [eauto|].
  destruct (centroid_moments g _ _ c' (fan_closed (phi o) (phi <$> vs)) V' HA' NZ' HC') as (X' & Y' & Z'); [eauto|].
  pose proof (area_fan g vs o V) as HF. rewrite HA in HF. apply Ok_inj' in HF.
  rewrite (fan_closed_map phi) in X', Y'. unfold moment_x, moment_y in *. rewrite sum_of_fmap in X', Y'. cbn beta in X', Y'.
  apply vec_eq.
  - apply (cancel_left ((a * e - b * d) * A)); [done|]. rewrite X'.
    transitivity ((a * e - b * d) * (a * sum_of (fun t0 => area t0 * (center t0).1.1) (fan_closed o vs) +
      b * sum_of (fun t0 => area t0 * (center t0).1.2) (fan_closed o vs) + t.1.1 * sum_of area (fan_closed o vs))).
    + rewrite <- !sum_of_scale, <- !sum_of_plus, <- sum_of_scale. apply sum_of_ext. intros x.
      unfold phi. rewrite area_plane_map, center_plane_map. unfold plane_map. cbn [fst snd]. ring.
    + rewrite <- X, <- Y. fold (total_area (fan_closed o vs)). rewrite <- HF. unfold phi, plane_map. cbn [fst snd]. ring.
  - apply (cancel_left ((a * e - b * d) * A)); [done|]. rewrite Y'.
    transitivity ((a * e - b * d) * (d * sum_of (fun t0 => area t0 * (center t0).1.1) (fan_closed o vs) +
      e * sum_of (fun t0 => area t0 * (center t0).1.2) (fan_closed o vs) + t.1.2 * sum_of area (fan_closed o vs))).
    + rewrite <- !sum_of_scale, <- !sum_of_plus, <- sum_of_scale. apply sum_of_ext. intros x.
      unfold phi. rewrite area_plane_map, center_plane_map. unfold plane_map. cbn [fst snd]. ring.
    + rewrite <- X, <- Y. fold (total_area (fan_closed o vs)). rewrite <- HF. unfold phi, plane_map. cbn [fst snd]. ring.
  - rewrite Z'. unfold phi, plane_map. cbn [fst snd]. done.
Qed.

(** ** Integrals *)

Lemma qsum_fmap {A} (f : A -> Qc) l : qsum (f <$> l) = sum_of f l.
Proof. unfold qsum, sum_of. induction l as [|a l IH]; cbn; [done|]. by rewrite IH. Qed.
Lemma det_orient (t : triangle) : af_det (map_of t) = orient t.1.1 t.1.2 t.2.
Proof. unfold map_of, MapTriangle, affine_of, plane_matrix, mdet, orient. cbn. ring. Qed.
Lemma qabs_mult_nonneg k x : 0 <= k -> qabs (k * x) = k * qabs x.
Proof.
  intros K. destruct (qabs_cases x) as [[H E]|[H E]]; rewrite E.
  - assert (0 <= k * x) by qnra. qcases; [done|qlra].
  - assert (k * x <= 0) by qnra. destruct (qabs_cases (k * x)) as [[H' E']|[H' E']]; rewrite E'; [|ring].
    assert (k * x = 0) as Z by qlra. rewrite Z. replace (k * - x) with (- (k * x)) by ring. rewrite Z. ring.
Qed.
Lemma zip_replicate (ws : list Qc) d : qsum (zip_with (fun w d => w * qabs d) ws (replicate (length ws) d)) = qabs d * qsum ws.
Proof. unfold qsum. induction ws as [|w ws IH]; cbn; [ring|]. rewrite IH. ring. Qed.
Lemma internal_integral ts ws : qsum ws = half ->
  PolygonAreaByInternalIntegral ts ws = sum_of (fun t => qabs (area t)) ts.
Proof.
  intros W. unfold PolygonAreaByInternalIntegral. rewrite qsum_fmap. apply sum_of_ext. intros t.
  rewrite zip_replicate, W, det_orient. unfold area. rewrite qabs_mult_nonneg by (unfold half; done). ring.
Qed.

(** The weights of a rule on the unit segment, exact for polynomials of degree one. *)
Lemma edge_rule x t l n ps ws : length ps = length ws -> qsum ws = 1 -> qdot ps ws = half ->
  qsum (zip_with (fun p w => (x + p * t) * (l * w * n)) ps ws) = (x + half * t) * (l * n).
Proof.
  intros L S M.
  assert (qsum (zip_with (fun p w => (x + p * t) * (l * w * n)) ps ws) = (x * qsum ws + t * qdot ps ws) * (l * n)) as ->.
  { clear S M. revert ws L. unfold qdot, qsum. induction ps as [|p ps IH]; intros [|w ws] L; try done; [cbn; ring|].
    cbn. rewrite IH by (cbn in L; lia). ring. }
  rewrite S, M. ring.
Qed.
Lemma nth_fmap_seq {A} (f : nat -> A) d n i : (i < n)%nat -> nth i (f <$> seq 0 n) d = f i.
Proof.
  intros L. apply nth_lookup_Some. rewrite list_lookup_fmap, lookup_seq_lt by done. done.
Qed.
Lemma boundary_integral g vs ls ts ns ps ws A : accepted g vs -> PolygonArea g vs = Ok A ->
  length ls = length vs -> length ts = length vs -> length ns = length vs -> length ps = length ws ->
  qsum ws = 1 -> qdot ps ws = half ->
  (forall e, (e < length vs)%nat -> vnth ts e = vsub (vnth vs ((e + 1) mod length vs)) (vnth vs e) /\
     0 <= nth e ls 0 /\ nth e ls 0 * (vnth ns e).1.1 = (vnth ts e).1.2) ->
  PolygonAreaByBoundaryIntegral vs ls ts ns ps ws = Ok A.
Proof.
  intros V HA L1 L2 L3 L4 W M E. unfold PolygonAreaByBoundaryIntegral.
  rewrite L1, L2, L3, L4, !Nat.eqb_refl. destruct V as [V F].
  assert ((2 <? length vs)%nat = true) as -> by (by apply Nat.ltb_lt). cbn [require mbind outcome_bind].
  rewrite area_formula in HA by done. apply Ok_inj' in HA. rewrite <- HA. f_equal.
  rewrite <- (sum_edges_closed wedge).
  transitivity (sum_edges (fun a b => (a.1.1 + half * (b.1.1 - a.1.1)) * (b.1.2 - a.1.2)) vs).
  - unfold sum_edges. f_equal. apply list_fmap_ext. intros i e H. apply lookup_seq in H. destruct H as [-> H].
    cbn [Nat.add]. destruct (E i H) as (T & P & N). rewrite edge_rule by done.
    assert (qabs (nth i ls 0) = nth i ls 0) as -> by (qcases; [done|qlra]). rewrite N, T. unfold vsub. cbn [fst snd]. ring.
  - rewrite !sum_edges_closed. rewrite <- (list_fmap_id vs) at 1.
    apply (closed_sum_map half _ wedge id (fun p => half * (p.1.1 * p.1.2))).
    intros a b. unfold wedge. cbn [id]. pose proof half_two as T.
    transitivity ((half + half) * (a.1.1 * (b.1.2 - a.1.2)) + half * ((b.1.1 - a.1.1) * (b.1.2 - a.1.2))); [rewrite T; ring|ring].
Qed.

(** ** Second moments *)

Lemma mass_rule (f0 f1 f2 : Qc) h0 h1 h2 :
  mass_weight * ((f0 + Q2Qc (2 # 3) * f1 + Q2Qc (1 # 6) * f2) * (h0 + Q2Qc (2 # 3) * h1 + Q2Qc (1 # 6) * h2)) +
  (mass_weight * ((f0 + Q2Qc (1 # 6) * f1 + Q2Qc (2 # 3) * f2) * (h0 + Q2Qc (1 # 6) * h1 + Q2Qc (2 # 3) * h2)) +
  (mass_weight * ((f0 + Q2Qc (1 # 6) * f1 + Q2Qc (1 # 6) * f2) * (h0 + Q2Qc (1 # 6) * h1 + Q2Qc (1 # 6) * h2)) + 0)) =
  (f0 * h0 * Q2Qc (1 # 2) + (f0 * h1 + f1 * h0) * Q2Qc (1 # 6) + (f0 * h2 + f2 * h0) * Q2Qc (1 # 6) +
   f1 * h1 * Q2Qc (1 # 12) + (f1 * h2 + f2 * h1) * Q2Qc (1 # 24) + f2 * h2 * Q2Qc (1 # 12)).
Proof.
  unfold mass_weight.
  set (k := Q2Qc (1 # 24)).
  assert (Q2Qc (1 # 12) = k + k) as -> by (apply Qc_is_canon; vm_compute; reflexivity).
  assert (Q2Qc (1 # 6) = k + k + k + k) as -> by (apply Qc_is_canon; vm_compute; reflexivity).
  assert (Q2Qc (2 # 3) = k * Q2Qc (16 # 1)) as -> by (apply Qc_is_canon; vm_compute; reflexivity).
  assert (Q2Qc (16 # 1) = (1 + 1) * (1 + 1) * (1 + 1) * (1 + 1)) as -> by (apply Qc_is_canon; vm_compute; reflexivity).
  assert (Q2Qc (1 # 2) = k * ((1 + 1) * (1 + 1) * (1 + 1 + 1))) as -> by (apply Qc_is_canon; vm_compute; reflexivity).
  assert (k = 1 / ((1 + 1) * (1 + 1) * (1 + 1) * (1 + 1 + 1))) as -> by (apply Qc_is_canon; vm_compute; reflexivity).
  field. done.
Qed.

(** An affine function of the first two coordinates. *)
Definition plane_affine (f : vec3 -> Qc) : Prop := exists a b k, forall p, f p = a * p.1.1 + b * p.1.2 + k.
Lemma plane_affine_map f t x y : plane_affine f ->
  f (F1 (map_of t) (x, y, 0)) = f t.1.1 + x * (f t.1.2 - f t.1.1) + y * (f t.2 - f t.1.1).
Proof. intros (a & b & k & E). rewrite !E. unfold map_of, MapTriangle, affine_of, F1. cbn. ring. Qed.
Lemma mass_integral_exact f h ts : plane_affine f -> plane_affine h ->
  mass_integral (fun p => f p * h p) ts = sum_of (integral f h) ts.
Proof.
  intros F H. unfold mass_integral. rewrite qsum_fmap. apply sum_of_ext. intros [[v0 v1] v2].
  rewrite det_orient. cbn [fst snd]. unfold integral. unfold mass_points. cbn [fmap list_fmap qsum foldr].
  rewrite !(plane_affine_map f), !(plane_affine_map h) by done. cbn [fst snd reference_moment].
  rewrite <- mass_rule. unfold qsum. cbn [foldr]. ring.
Qed.
