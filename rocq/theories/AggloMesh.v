(** * Joining fans of triangles in a mesh. *)
From Coq Require Import QArith Qcanon Sorted.
From stdpp Require Import sorting.
From Coq Require Import ZifyBool ZifyNat ZifyN.
From Verif Require Import Base BaseProof QcTac FillModel FillProofG GeoModel MapModel PointModel PointSpec PointProof PolyModel PolySpec PolyProof HullModel CsrModel
  MeshModel MeshSpec MeshRep MeshHist MeshProof MeshProof8 MeshProof9 MeshProofB MeshProofE MeshProg UtilSpec UtilProofD UtilProofG RefineModel RefineSpec CheckModel CheckSpec CheckProof CheckProof2
  CheckSolid AggloModel AggloSpec AggloProof.
Local Open Scope nat_scope.

(** ** Shape and area *)
Lemma triangle_joins m t v p q s b s' : triangle_is m t [v; p; q] [s; b; s'] ->
  (forall vs es, RelRow V2 t m = Ok vs -> RelRow E2 t m = Ok es -> around_edges m vs es) ->
  joins m s v p /\ joins m b p q /\ joins m s' q v.
Proof.
  intros (k & K & RV & RE) H. destruct (H _ _ RV RE) as [_ J].
  destruct k as [|[|[|k]]]; [| | |lia].
  - change (rotate 0 [v; p; q]) with [v; p; q] in J; change (rotate 0 [s; b; s']) with [s; b; s'] in J.
    destruct (J 0 s eq_refl) as (?&?&[= <-]&[= <-]&?). destruct (J 1 b eq_refl) as (?&?&[= <-]&[= <-]&?).
    destruct (J 2 s' eq_refl) as (?&?&[= <-]&[= <-]&?). done.
  - change (rotate 1 [v; p; q]) with [p; q; v] in *; change (rotate 1 [s; b; s']) with [b; s'; s] in *.
    destruct (J 0 b eq_refl) as (?&?&[= <-]&[= <-]&?). destruct (J 1 s' eq_refl) as (?&?&[= <-]&[= <-]&?).
    destruct (J 2 s eq_refl) as (?&?&[= <-]&[= <-]&?). done.
  - change (rotate 2 [v; p; q]) with [q; v; p] in *; change (rotate 2 [s; b; s']) with [s'; s; b] in *.
    destruct (J 0 s' eq_refl) as (?&?&[= <-]&[= <-]&?). destruct (J 1 s eq_refl) as (?&?&[= <-]&[= <-]&?).
    destruct (J 2 b eq_refl) as (?&?&[= <-]&[= <-]&?). done.
Qed.

Lemma border_around m f : is_fan m f -> 1 <= length (f_triangles f) ->
  (forall t vs es, t ∈ f_triangles f -> RelRow V2 t m = Ok vs -> RelRow E2 t m = Ok es -> around_edges m vs es) ->
  around_edges m (border_vertices f) (border_edges f).
Proof.
  intros FAN N1 H. pose proof (fan_rim _ _ FAN) as LR. pose proof (fan_spokes _ _ FAN) as LS. pose proof (fan_outer _ _ FAN) as LO.
  set (n := length (f_triangles f)) in *.
  assert (forall k t, f_triangles f !! k = Some t -> exists p q s b s',
    f_rim f !! k = Some p /\ f_rim f !! S k = Some q /\ f_spokes f !! k = Some s /\ f_outer f !! k = Some b /\ f_spokes f !! S k = Some s' /\
    joins m s (f_centre f) p /\ joins m b p q /\ joins m s' q (f_centre f)) as TJ.
  { intros k t T. destruct (fan_triangle _ _ FAN _ _ T) as (p & q & s & b & s' & P & Q & S0 & B & S1 & TR).
    destruct (triangle_joins m t _ _ _ _ _ _ TR) as (J0 & J1 & J2); [intros vs es; apply H; by eapply elem_of_list_lookup_2|].
    exists p, q, s, b, s'. done. }
  unfold around_edges, border_vertices, border_edges. fold n.
  assert (length (take 1 (f_spokes f) ++ f_outer f ++ drop n (f_spokes f)) = length (f_centre f :: f_rim f)) as LL.
  { rewrite !app_length, take_length, drop_length. cbn [length]. lia. }
  split; [exact LL|]. intros k e E. pose proof (lookup_lt_Some _ _ _ E) as K. rewrite LL in K. cbn [length] in K.
  change (length (f_centre f :: f_rim f)) with (S (length (f_rim f))). rewrite LR in K |- *.
  destruct (lookup_lt_is_Some_2 (f_triangles f) 0 ltac:(fold n; lia)) as [t0 T0].
  destruct k as [|k].
  - destruct (TJ _ _ T0) as (p & q & s & b & s' & P & Q & S0 & B & S1 & J0 & J1 & J2).
    destruct (f_spokes f) as [|s0 l]; [done|]. injection S0 as ->. injection E as <-.
    exists (f_centre f), p. split_and!; [done| |done]. rewrite Nat.mod_small by lia. done.
  - rewrite lookup_app_r in E by (rewrite take_length; lia). rewrite take_length in E.
    replace (S k - 1 `min` length (f_spokes f)) with k in E by lia.
    destruct (decide (k < n)) as [L|L].
    + rewrite lookup_app_l in E by lia. destruct (lookup_lt_is_Some_2 (f_triangles f) k ltac:(fold n; lia)) as [t T].
      destruct (TJ _ _ T) as (p & q & s & b & s' & P & Q & S0 & B & S1 & J0 & J1 & J2). rewrite B in E. injection E as <-.
      exists p, q. split_and!; [done| |done]. rewrite Nat.mod_small by lia. done.
    + assert (k = n) as -> by lia. rewrite lookup_app_r in E by lia. rewrite LO, lookup_drop in E. replace (n + (n - n)) with n in E by lia.
      destruct (lookup_lt_is_Some_2 (f_triangles f) (n - 1) ltac:(fold n; lia)) as [t T].
      destruct (TJ _ _ T) as (p & q & s & b & s' & P & Q & S0 & B & S1 & J0 & J1 & J2). replace (S (n - 1)) with n in * by lia.
      rewrite S1 in E. injection E as <-. exists q, (f_centre f). split_and!; [done| |done]. rewrite Nat.mod_same by lia. done.
Qed.

Lemma signed_area_closed ps : signed_area ps = (PolySpec.half * closed_sum wedge ps)%Qc.
Proof. unfold signed_area. rewrite total_area_wedge. by rewrite <- (closed_sum_fan wedge _ ps wedge_antisymmetric). Qed.

Lemma fan_sum (g : list N -> Qc) (pos : N -> vec3) h c rows rim : antisymmetric h -> length rim = S (length rows) ->
  (forall k row, rows !! k = Some row -> exists p q, rim !! k = Some p /\ rim !! S k = Some q /\ g row = around h (pos c, pos p, pos q)) ->
  sum_of (around h) (fan (pos c) (pos <$> rim)) = sum_of g rows.
Proof.
  intros A. revert rim. induction rows as [|row rows IH]; intros rim L H.
  { destruct rim as [|x [|y rim]]; [done|done|cbn in L; lia]. }
  destruct rim as [|x [|y rim]]; [cbn in L; lia|cbn in L; lia|].
  rewrite !fmap_cons, fan_cons2, !sum_of_cons. destruct (H 0 row eq_refl) as (p & q & [= <-] & [= <-] & ->). f_equal.
  rewrite <- fmap_cons. apply IH; [cbn in *; lia|]. intros k r R. apply (H (S k) r R).
Qed.

Lemma path_end (f : vec3 -> vec3 -> Qc) y ps c : path_sum f (y :: ps ++ [c]) = (path_sum f (y :: ps) + f (List.last (y :: ps) y) c)%Qc.
Proof.
  revert y. induction ps as [|z ps IH]; intros y; [cbn; ring|]. cbn [app]. rewrite !path_sum_cons2, IH.
  replace (List.last (y :: z :: ps) y) with (List.last (z :: ps) z); [ring|].
  clear. cbn. destruct ps as [|c l]; [done|]. revert c. induction l as [|d l IH]; intros c; [done|]. apply IH.
Qed.

Lemma border_area m f (pos : N -> vec3) rows : is_fan m f -> Forall2 (fun t row => RelRow V2 t m = Ok row) (f_triangles f) rows ->
  signed_area (pos <$> border_vertices f) = sum_of (fun row => signed_area (pos <$> row)) rows.
Proof.
  intros FAN F. rewrite signed_area_closed.
  assert (sum_of (fun row => signed_area (pos <$> row)) rows = (PolySpec.half * sum_of (fun row => closed_sum wedge (pos <$> row)) rows)%Qc) as ->.
  { clear F. induction rows as [|r rows IH]; [cbn; ring|]. rewrite !sum_of_cons, IH, signed_area_closed. ring. }
  f_equal. rewrite <- (fan_sum _ pos wedge (f_centre f) rows (f_rim f) wedge_antisymmetric).
  - unfold border_vertices. pose proof (fan_rim _ _ FAN) as LR. destruct (f_rim f) as [|x l]; [done|].
    rewrite !fmap_cons. rewrite path_sum_fan by apply wedge_antisymmetric. cbn [closed_sum].
    cbn [app]. rewrite path_sum_cons2, path_end. rewrite (wedge_antisymmetric (List.last _ _) (pos (f_centre f))). ring.
  - rewrite (fan_rim _ _ FAN). f_equal. by eapply Forall2_length.
  - intros k row R. destruct (Forall2_lookup_r _ _ _ _ _ F R) as (t & T & RV).
    destruct (fan_triangle _ _ FAN _ _ T) as (p & q & s & b & s' & P & Q & S0 & B & S1 & (j & J & RV' & _)).
    exists p, q. split_and!; [done..|]. rewrite RV in RV'. injection RV' as ->.
    unfold rotate. rewrite fmap_app, closed_sum_rotate, <- fmap_app, take_drop. cbn. unfold around. cbn. ring.
Qed.

(** ** One fan *)
Section group.
Context (a : amesh) (f : fan_data).
Notation c := (anum D2 a).
Notation b := (aappend D2 1 a).
Notation T := (f_triangles f).
Notation E := (inner_spokes f).

Definition orig_of (ts : list nat) (x : acell) : acell := match last ts with Some t => with_orig (N.of_nat t) x | None => x end.
Definition fresh_cell (x : acell) : acell := with_act true (with_mark 0 (with_row E2 (border_edges f) (with_row V2 (border_vertices f) x))).
(** After the triangles [ts] and the edges [es]. *)
Definition grp (ts : list nat) (es : list N) (d : dim) (i : nat) (x : acell) : acell :=
  if decide (d = D2 /\ i = c) then orig_of ts (fresh_cell x)
  else if decide (d = D2 /\ i ∈ ts) then upd_with c (with_act false x)
  else if decide (d = D1 /\ N.of_nat i ∈ es) then with_act false x
  else x.

Lemma num_b d : anum d b = anum d a + if decide (d = D2) then 1 else 0.
Proof. by rewrite aappend_num. Qed.
Lemma c_lt : c < anum D2 b.
Proof. rewrite num_b, decide_True by done. lia. Qed.

Lemma grp_start : all_below (anum D0 a) (border_vertices f) -> all_below (anum D1 a) (border_edges f) ->
  does (fun m => m ← RelAdd V2 c (border_vertices f) m; m ← RelAdd E2 c (border_edges f) m; m ← SetMarker D2 c 0 m; SetState D2 c true m)
    b (amap (grp [] []) b).
Proof.
  intros HV HE. pose proof c_lt as CL.
  eapply does_aeq_l; [apply amap_keep|].
  eapply does_aeq.
  - eapply does_bind; [apply does_Add; [exact CL|done|]|]. { cbn [tgt]. rewrite num_b, decide_False by done. by rewrite Nat.add_0_r. }
    eapply does_bind; [apply does_Add; [exact CL|done|]|]. { cbn [tgt]. rewrite num_b, decide_False by done. by rewrite Nat.add_0_r. }
    eapply does_bind; [apply does_Marker; exact CL|]. apply does_State; exact CL.
  - apply amap_ext. intros d i x X. unfold grp, also, keep. cbn [src].
    destruct (decide (d = D2 /\ i = c)) as [[-> ->]|NE].
    + apply ceq_refl.
    + rewrite !decide_False; [apply ceq_refl|..]; intros [_ ?%elem_of_nil]; done.
Qed.

Lemma grp_triangle ts t : t < c -> t ∉ ts -> (forall x, am_cells a D2 !! t = Some x -> ac_act x = true) ->
  does (fun m => retire_triangle c m t) (amap (grp ts []) b) (amap (grp (ts ++ [t]) []) b).
Proof.
  intros L NI ACT. pose proof c_lt as CL.
  destruct (lookup_lt_is_Some_2 (am_cells a D2) t L) as [x0 X0].
  assert (am_cells b D2 !! t = Some x0) as XB by (by rewrite aappend_old).
  eapply does_ext with (Q := fun m => m' ← SetState D2 t false m; InsertUpdated D2 t c m').
  { intros m R. unfold retire_triangle. rewrite (g_active _ _ (proj2 R)). unfold look. rewrite amap_lookup, XB. cbn [fmap option_fmap option_map].
    unfold grp. rewrite !decide_False; [|intros [? _]; done|intros [_ ?]; done|intros [_ ?]; lia]. rewrite (ACT x0 X0). done. }
  eapply does_aeq.
  - eapply does_bind; [apply does_State; lia|]. apply does_Updated; lia.
  - apply amap_ext. intros d i x X. unfold also.
    destruct (decide (d = D2 /\ i = c)) as [[-> ->]|NE].
    + rewrite !(decide_False (P := D2 = D2 /\ c = t)) by lia. unfold grp.
      rewrite !(decide_True (P := D2 = D2 /\ c = c)) by done. unfold orig_of. rewrite last_snoc.
      unfold orig_with. rewrite decide_False by done. destruct (last ts); apply ceq_refl.
    + destruct (decide (d = D2 /\ i = t)) as [[-> ->]|NE'].
      * unfold grp. rewrite !(decide_False (P := D2 = D2 /\ t = c)) by lia.
        rewrite (decide_False (P := D2 = D2 /\ t ∈ ts)) by tauto.
        rewrite (decide_False (P := D2 = D1 /\ N.of_nat t ∈ [])) by (intros [? _]; done).
        rewrite decide_True; [apply ceq_refl|]. split; [done|]. apply elem_of_app. right. by apply elem_of_list_singleton.
      * unfold grp. rewrite !(decide_False (P := d = D2 /\ i = c)) by done.
        destruct (decide (d = D2 /\ i ∈ ts)) as [[-> I]|NI'].
        -- rewrite decide_True; [apply ceq_refl|]. split; [done|]. apply elem_of_app. by left.
        -- rewrite (decide_False (P := d = D2 /\ i ∈ ts ++ [t])); [apply ceq_refl|].
           intros [-> [I|I%elem_of_list_singleton]%elem_of_app]; tauto.
Qed.

Lemma grp_edge es e : (e < N.of_nat (anum D1 a))%N -> e ∉ es -> (forall x, am_cells a D1 !! N.to_nat e = Some x -> ac_act x = true) ->
  does (fun m => retire_edge m e) (amap (grp T es) b) (amap (grp T (es ++ [e])) b).
Proof.
  intros L NI ACT.
  destruct (lookup_lt_is_Some_2 (am_cells a D1) (N.to_nat e)) as [x0 X0]. { unfold anum in L. lia. }
  assert (N.to_nat e < anum D1 a) as L' by lia.
  assert (am_cells b D1 !! N.to_nat e = Some x0) as XB by (by rewrite aappend_old).
  eapply does_ext with (Q := fun m => SetState D1 (N.to_nat e) false m).
  { intros m R. unfold retire_edge. rewrite (g_active _ _ (proj2 R)). unfold look. rewrite amap_lookup, XB. cbn [fmap option_fmap option_map].
    unfold grp. rewrite N2Nat.id. rewrite !decide_False; [|intros [_ ?]; done|intros [? _]; done|intros [? _]; done]. rewrite (ACT x0 X0). done. }
  eapply does_aeq.
  - apply does_State. rewrite num_b, decide_False by done. lia.
  - apply amap_ext. intros d i x X. unfold also.
    destruct (decide (d = D1 /\ i = N.to_nat e)) as [[-> ->]|NE].
    + unfold grp. rewrite N2Nat.id. rewrite !(decide_False (P := D1 = D2 /\ N.to_nat e = c)) by (intros [? _]; done).
      rewrite !(decide_False (P := D1 = D2 /\ N.to_nat e ∈ T)) by (intros [? _]; done).
      rewrite (decide_False (P := D1 = D1 /\ e ∈ es)) by tauto.
      rewrite decide_True; [apply ceq_refl|]. split; [done|]. apply elem_of_app. right. by apply elem_of_list_singleton.
    + unfold grp. destruct (decide (d = D2 /\ i = c)); [apply ceq_refl|]. destruct (decide (d = D2 /\ i ∈ T)); [apply ceq_refl|].
      destruct (decide (d = D1 /\ N.of_nat i ∈ es)) as [[-> I]|NI'].
      * rewrite decide_True; [apply ceq_refl|]. split; [done|]. apply elem_of_app. by left.
      * rewrite decide_False; [apply ceq_refl|]. intros [-> [I|I%elem_of_list_singleton]%elem_of_app]; [tauto|]. apply NE. split; [done|]. lia.
Qed.

Lemma grp_triangles : (forall t x, t ∈ T -> t < c /\ (am_cells a D2 !! t = Some x -> ac_act x = true)) -> NoDup T ->
  does (ofold (retire_triangle c) T) (amap (grp [] []) b) (amap (grp T []) b).
Proof.
  intros H ND. pose proof (does_loop (retire_triangle c) T (fun k => amap (grp (take k T) []) b)) as D.
  cbn beta in D. rewrite firstn_all in D. apply D. intros k t X.
  rewrite (take_more _ _ _ X). pose proof (elem_of_list_lookup_2 _ _ _ X) as I.
  apply grp_triangle; [apply (H t (new_cell D2 0) I)| |intros x; by apply H].
  intros J. apply elem_of_take in J as (i & Y & L). pose proof (NoDup_lookup _ _ _ _ ND X Y). lia.
Qed.
Lemma grp_edges : (forall e x, e ∈ E -> (e < N.of_nat (anum D1 a))%N /\ (am_cells a D1 !! N.to_nat e = Some x -> ac_act x = true)) -> NoDup E ->
  does (ofold retire_edge E) (amap (grp T []) b) (amap (grp T E) b).
Proof.
  intros H ND. pose proof (does_loop retire_edge E (fun k => amap (grp T (take k E)) b)) as D.
  cbn beta in D. rewrite firstn_all in D. apply D. intros k t X.
  rewrite (take_more _ _ _ X). pose proof (elem_of_list_lookup_2 _ _ _ X) as I.
  apply grp_edge; [apply (H t (new_cell D2 0) I)| |intros x; by apply H].
  intros J. apply elem_of_take in J as (i & Y & L). pose proof (NoDup_lookup _ _ _ _ ND X Y). lia.
Qed.

Lemma grp_reads m m' : rr m a -> rr m' (amap (grp T E) b) -> (forall t, t ∈ T -> t < c) -> T <> [] -> agglomerated [f] m m'.
Proof.
  intros [_ R] [_ R'] TL NE.
  assert (OLD : forall B d i (h : acell -> B), i < anum d a -> look (amap (grp T E) b) d i h = look a d i (fun x => h (grp T E d i x))).
  { intros B d i h L. unfold look. rewrite amap_lookup, aappend_old by done. by destruct (am_cells a d !! i). }
  assert (NEW : forall B (h : acell -> B), look (amap (grp T E) b) D2 c h = Ok (h (orig_of T (fresh_cell (new_cell D2 (length (am_names a D2))))))).
  { intros B h. unfold look. rewrite amap_lookup, aappend_new by lia. cbn [fmap option_fmap option_map]. unfold grp. by rewrite decide_True. }
  assert (SAME : forall B (h : acell -> B) d i, i < anum d a -> (forall v x, h (with_act v x) = h x) -> (forall u x, h (with_upd u x) = h x) ->
    look (amap (grp T E) b) d i h = look a d i h).
  { intros B h d i L HA HU. rewrite OLD by done. unfold look. destruct (am_cells a d !! i) as [x|]; [|done]. f_equal. unfold grp.
    rewrite decide_False by (intros [-> ->]; lia). case_decide; [unfold upd_with; by rewrite HU, HA|]. case_decide; [apply HA|done]. }
  assert (LT : exists t, last T = Some t) by (destruct (last T) eqn:EL; [eauto|]; by apply last_None in EL).
  assert (RET : forall d i, retired [f] d i <-> (d = D2 /\ i ∈ T) \/ (d = D1 /\ N.of_nat i ∈ E)).
  { intros d i. unfold retired. split; [intros (f' & ->%elem_of_list_singleton & H); done|]. intros H. exists f. split; [by left|done]. }
  split.
  - by rewrite (r_dim _ _ R), (r_dim _ _ R').
  - intros d. rewrite (g_num _ _ R), (g_num _ _ R'), amap_num, num_b. done.
  - intros d i L H. rewrite RET in H. rewrite (g_num _ _ R) in L. rewrite (g_active _ _ R'), OLD by done. unfold look, anum in *.
    destruct (lookup_lt_is_Some_2 _ _ L) as [x X]. rewrite X. f_equal. unfold grp. rewrite decide_False by (intros [-> ->]; unfold anum in L; lia).
    destruct H as [H|H]; [by rewrite decide_True|]. case_decide; [done|]. by rewrite decide_True.
  - intros d i L H. rewrite RET in H. rewrite (g_num _ _ R) in L. rewrite (g_active _ _ R'), OLD, (g_active _ _ R) by done. unfold look, anum in *.
    destruct (lookup_lt_is_Some_2 _ _ L) as [x X]. rewrite X. f_equal. unfold grp. rewrite decide_False by (intros [-> ->]; unfold anum in L; lia).
    rewrite !decide_False by tauto. done.
  - intros d i L. rewrite (g_num _ _ R) in L. rewrite (g_marker _ _ R), (g_marker _ _ R'). by apply SAME.
  - intros r i L. rewrite (g_num _ _ R) in L. rewrite (g_row _ _ R), (g_row _ _ R'). by apply SAME.
  - intros i L. rewrite (g_num _ _ R) in L. rewrite (g_coord _ _ R), (g_coord _ _ R'). by apply SAME.
  - intros e L. rewrite (g_num _ _ R) in L. rewrite (g_origin _ _ R), (g_origin _ _ R'), (g_end _ _ R), (g_end _ _ R'). split; by apply SAME.
  - intros d i ND L. rewrite (g_num _ _ R) in L. rewrite (g_original _ _ R), (g_original _ _ R') by done. by apply SAME.
  - intros d i j L. rewrite (g_num _ _ R) in L. rewrite (g_num _ _ R).
    transitivity (replaced_by d m i j \/ (d = D2 /\ i ∈ T /\ j = c)).
    2:{ split; intros [H|H]; [by left|right|by left|right].
        - destruct H as (-> & I & ->). split; [done|]. exists 0, f. rewrite Nat.add_0_r. done.
        - destruct H as (-> & k & f' & K & I & ->). destruct k as [|k]; [|done]. injection K as <-. rewrite Nat.add_0_r. done. }
    pose proof (replaced_lt _ _ d i j R) as LT'.
    rewrite (replaced_by_abs _ _ _ _ _ R) in LT' |- *. rewrite (replaced_by_abs _ _ _ _ _ R'). rewrite amap_num, num_b, amap_lookup, aappend_old by done.
    unfold anum in L. destruct (lookup_lt_is_Some_2 _ _ L) as [x X]. fold (anum d a) in L. rewrite X. cbn [fmap option_fmap option_map].
    assert (grp T E d i x = if decide (d = D2 /\ i ∈ T) then upd_with c (with_act false x) else if decide (d = D1 /\ N.of_nat i ∈ E) then with_act false x else x) as ->.
    { unfold grp. by rewrite decide_False by (intros [-> ->]; lia). }
    destruct (decide (d = D2 /\ i ∈ T)) as [[-> I]|NI].
    + split.
      * intros (J & y & s & [= <-] & [= <-] & H). apply elem_of_union in H as [H%elem_of_singleton|H]; [right; split_and!; [done..|]; lia|left].
        cbn [ac_upd with_act] in H. destruct (ac_upd x) as [s|] eqn:U; [|by apply elem_of_empty in H]. cbn in H.
        assert (N.of_nat j < N.of_nat c)%N as JL.
        { pose proof (rc_upd_ok _ _ _ _ _ _ _ _ _ (r_cells _ _ R D2) i s) as Hok. rewrite list_lookup_fmap, X in Hok. cbn in Hok. rewrite U in Hok.
          by apply Hok. }
        split; [lia|]. by exists x, s.
      * intros [(J & y & s & [= <-] & U & H)|(_ & _ & ->)].
        -- split; [lia|]. eexists _, _. split; [done|]. split; [done|]. cbn [ac_upd with_act]. rewrite U. cbn. set_solver.
        -- split; [rewrite decide_True by done; lia|]. eexists _, _. split; [done|]. split; [done|]. set_solver.
    + assert (forall y, ac_upd y = ac_upd x -> ((j < anum d a + (if decide (d = D2) then 1 else 0) /\ (exists x' s, Some y = Some x' /\ ac_upd x' = Some s /\ N.of_nat j ∈ s)) <->
        (j < anum d a /\ exists x' s, Some x = Some x' /\ ac_upd x' = Some s /\ N.of_nat j ∈ s))) as EQ.
      { intros y Y. split; [|intros (J & x' & s & [= <-] & U & H); split; [lia|]; exists y, s; by rewrite Y].
        intros (J & x' & s & [= <-] & U & H). rewrite Y in U.
        pose proof (rc_upd_ok _ _ _ _ _ _ _ _ _ (r_cells _ _ R d) i s) as Hok. rewrite list_lookup_fmap, X in Hok. cbn in Hok. rewrite U in Hok.
        destruct (Hok eq_refl) as [_ Hb]. specialize (Hb _ H). split; [unfold anum; lia|]. by exists x, s. }
      destruct (decide (d = D1 /\ N.of_nat i ∈ E)); [rewrite (EQ (with_act false x) eq_refl)|rewrite (EQ x eq_refl)]; (split; [tauto|]; intros [?|(?&?&?)]; tauto).
  - intros k f' K. destruct k as [|k]; [|done]. injection K as <-. cbn zeta. rewrite Nat.add_0_r, (g_num _ _ R).
    destruct LT as [t LT].
    assert (orig_of T = with_orig (N.of_nat t)) as OF by (unfold orig_of; by rewrite LT).
    rewrite !(g_row _ _ R'), (g_marker _ _ R'), (g_active _ _ R'), (g_hasupdateds _ _ R'), (g_original _ _ R') by done. cbn [src]. rewrite !NEW.
    rewrite OF. split_and!; try done. exists t. done.
Qed.
End group.

(** The triangles of a fan differ. *)
Lemma fan_nodup m f : reachable m -> is_fan m f -> NoDup (f_triangles f).
Proof.
  intros RM FAN. apply NoDup_alt. intros i j t X Y.
  destruct (fan_triangle _ _ FAN _ _ X) as (p & q & s & b & s' & P & Q & S0 & B & S1 & (k & K & _ & RE)).
  destruct (fan_triangle _ _ FAN _ _ Y) as (p' & q' & s0' & b' & s1' & P' & Q' & S0' & B' & S1' & (k' & K' & _ & RE')).
  rewrite RE in RE'. injection RE' as EQ.
  assert (forall X (l : list X) k, rotate k l ≡ₚ l) as PR.
  { intros Z l z. unfold rotate. rewrite Permutation_app_comm. by rewrite take_drop. }
  assert (b ∈ [s0'; b'; s1']) as I. { rewrite <- (PR _ _ k'), <- EQ, PR. rewrite !elem_of_cons. tauto. }
  pose proof (fan_edges _ _ FAN) as ND. apply NoDup_app in ND as (ND & DJ & NB). rewrite !elem_of_cons, elem_of_nil in I.
  destruct I as [-> | [-> | [-> | []]]].
  - exfalso. apply (DJ s0'); by eapply elem_of_list_lookup_2.
  - exact (NoDup_lookup _ _ _ _ NB B B').
  - exfalso. apply (DJ s1'); by eapply elem_of_list_lookup_2.
Qed.

Lemma join_group_ok f m : reachable m -> joinable [f] m ->
  exists m', join_group (f_triangles f) m = Ok (m', num D2 m, inner_spokes f) /\ reachable m' /\ agglomerated [f] m m'.
Proof.
  intros RM [[[FAN N3] _]%Forall_cons [[HV HE] _]%Forall_cons [HT _]%Forall_cons [HS _]%Forall_cons A2 A1].
  destruct (rr_of m RM) as [a Hm]. pose proof (proj2 Hm) as R.
  unfold join_group. rewrite (agglomerate_fan m RM f FAN N3). cbn [mbind outcome_bind j_vertices j_edges j_removed].
  destruct (does_Append D2 1 a m Hm) as (m1 & -> & H1). cbn [mbind outcome_bind fst snd].
  unfold exists_in in HV, HE. rewrite (g_num _ _ R) in HV, HE.
  destruct (grp_start a f HV HE m1 H1) as (m2 & E2 & H2).
  assert (forall t x, t ∈ f_triangles f -> t < anum D2 a /\ (am_cells a D2 !! t = Some x -> ac_act x = true)) as TT.
  { intros t x I. rewrite Forall_forall in HT. specialize (HT t I). rewrite (g_active _ _ R) in HT. unfold look in HT.
    destruct (am_cells a D2 !! t) as [y|] eqn:Y; [|done]. split; [by eapply lookup_lt_Some|]. intros [= <-]. by injection HT. }
  assert (forall e x, e ∈ inner_spokes f -> (e < N.of_nat (anum D1 a))%N /\ (am_cells a D1 !! N.to_nat e = Some x -> ac_act x = true)) as EE.
  { intros t x I. rewrite Forall_forall in HS. specialize (HS t I). rewrite (g_active _ _ R) in HS. unfold look in HS.
    destruct (am_cells a D1 !! N.to_nat t) as [y|] eqn:Y; [|done]. split; [apply lookup_lt_Some in Y; unfold anum; lia|]. intros [= <-]. by injection HS. }
  assert (NoDup (f_triangles f)) as N2 by (by eapply fan_nodup).
  assert (NoDup (inner_spokes f)) as N1.
  { cbn [fmap list_fmap concat] in A1. by rewrite app_nil_r in A1. }
  destruct (grp_triangles a f TT N2 m2 H2) as (m3 & E3 & H3).
  destruct (grp_edges a f EE N1 m3 H3) as (m4 & E4 & H4).
  apply bind_ok in E2 as (m11 & -> & E2). cbn [mbind outcome_bind]. apply bind_ok in E2 as (m12 & -> & E2). cbn [mbind outcome_bind].
  apply bind_ok in E2 as (m13 & -> & E2). cbn [mbind outcome_bind]. rewrite E2. cbn [mbind outcome_bind]. rewrite E3. cbn [mbind outcome_bind].
  rewrite E4. cbn [mbind outcome_bind]. exists m4. split; [by rewrite (g_num _ _ R)|]. split; [apply H4|].
  eapply grp_reads; [exact Hm|exact H4|intros t I; apply (TT t (new_cell D2 0) I)|]. intros E. rewrite E in N3. cbn in N3. lia.
Qed.
