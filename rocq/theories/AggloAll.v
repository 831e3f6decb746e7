(** * Joining several fans. *)
From Coq Require Import QArith Qcanon Sorted.
From stdpp Require Import sorting.
From Coq Require Import ZifyBool ZifyNat ZifyN.
From Verif Require Import Base BaseProof QcTac FillModel FillProofG GeoModel MapModel PointModel PointSpec PointProof PolyModel PolySpec PolyProof HullModel CsrModel
  MeshModel MeshSpec MeshRep MeshHist MeshProof MeshProof8 MeshProof9 MeshProofB MeshProofE MeshProg UtilSpec UtilProofD UtilProofG RefineModel RefineSpec CheckModel CheckSpec CheckProof CheckProof2
  CheckSolid AggloModel AggloSpec AggloProof AggloMesh.
Local Open Scope nat_scope.

Lemma fan_lt m f t : reachable m -> is_fan m f -> t ∈ f_triangles f -> t < num D2 m.
Proof.
  intros RM FAN [k T]%elem_of_list_lookup. destruct (fan_triangle _ _ FAN _ _ T) as (p & q & s & b & s' & _ & _ & _ & _ & _ & (j & _ & RV & _)).
  exact (row_lt m RM V2 t _ RV).
Qed.
Lemma fan_kept m m' f : reachable m -> (forall r i, i < num (src r) m -> RelRow r i m' = RelRow r i m) -> is_fan m f -> is_fan m' f.
Proof.
  intros RM K FAN. split; try apply FAN. intros k t T. destruct (fan_triangle _ _ FAN _ _ T) as (p & q & s & b & s' & P & Q & S0 & B & S1 & TR).
  exists p, q, s, b, s'. split_and!; try done. destruct TR as (j & J & RV & RE). exists j. split; [done|].
  pose proof (fan_lt m f t RM FAN (elem_of_list_lookup_2 _ _ _ T)) as L. rewrite !K by done. done.
Qed.

Lemma joinable_first f fs m : joinable (f :: fs) m -> joinable [f] m.
Proof.
  intros [[? _]%Forall_cons [? _]%Forall_cons [? _]%Forall_cons [? _]%Forall_cons A2 A1].
  cbn [fmap list_fmap concat] in A2, A1. apply NoDup_app in A2 as (? & _ & _), A1 as (? & _ & _).
  split; try (constructor; [done|constructor]); cbn; by rewrite app_nil_r.
Qed.

Lemma in_concat {X} (g : fan_data -> list X) fs f x : f ∈ fs -> x ∈ g f -> x ∈ concat (g <$> fs).
Proof. intros F I. induction F as [|f y fs F IH]; cbn [fmap list_fmap concat]; apply elem_of_app; [by left|right; by apply IH]. Qed.

Lemma joinable_rest f fs m m' : reachable m -> joinable (f :: fs) m -> agglomerated [f] m m' -> joinable fs m'.
Proof.
  intros RM [HF%Forall_cons HC%Forall_cons HT%Forall_cons HS%Forall_cons A2 A1] AG.
  destruct HF as [[F1 F2] HF], HC as [_ HC], HT as [_ HT], HS as [_ HS].
  cbn [fmap list_fmap concat] in A2, A1. apply NoDup_app in A2 as (_ & D2' & A2), A1 as (_ & D1' & A1).
  split; [| | | |done|done].
  - eapply Forall_impl; [exact HF|]. intros g [G1 G2]. split; [|done]. eapply fan_kept; [done|apply (ag_rows _ _ _ AG)|done].
  - eapply Forall_impl; [exact HC|]. intros g [G1 G2]. unfold exists_in in *. rewrite !(ag_num _ _ _ AG), !decide_False, !Nat.add_0_r by done. done.
  - rewrite Forall_forall in HF, HT |- *. intros g G. specialize (HT g G). rewrite Forall_forall in HT |- *. intros t I.
    rewrite (ag_on _ _ _ AG); [by apply HT|apply (fan_lt m g); [done|by apply HF|done]|].
    intros (f' & ->%elem_of_list_singleton & [[_ J]|[? _]]); [|done]. apply (D2' t J). by eapply in_concat.
  - rewrite Forall_forall in HF, HS |- *. intros g G. specialize (HS g G). rewrite Forall_forall in HS |- *. intros e I.
    rewrite (ag_on _ _ _ AG); [by apply HS| |].
    + specialize (HS e I). unfold IsActive in HS. destruct (N.to_nat e <? num D1 m) eqn:L; [lia|done].
    + intros (f' & ->%elem_of_list_singleton & [[? _]|[_ J]]); [done|]. rewrite N2Nat.id in J. apply (D1' e J). by eapply in_concat.
Qed.

Lemma retired_cons f fs d i : retired (f :: fs) d i <-> retired [f] d i \/ retired fs d i.
Proof.
  unfold retired. split.
  - intros (g & [-> | G]%elem_of_cons & H); [left; exists f; split; [by left|done]|right; eauto].
  - intros [(g & ->%elem_of_list_singleton & H)|(g & G & H)]; [exists f; split; [by left|done]|exists g; split; [by right|done]].
Qed.

Lemma upd_none m d i : reachable m -> i < num d m -> (forall j, ~ replaced_by d m i j) -> HasUpdateds d i m = Ok false.
Proof.
  intros RM L H. destruct (HasUpdateds d i m) as [[]| | | |] eqn:E; [|done|..].
  - apply hasupdateds_replaced in E as [j J]; [|done]. by destruct (H j).
  - destruct (reachable_rep m RM) as [a R]. rewrite (g_hasupdateds _ _ R) in E. rewrite (g_num _ _ R) in L. unfold look, anum in *.
    destruct (lookup_lt_is_Some_2 _ _ L) as [x X]. by rewrite X in E.
  - destruct (reachable_rep m RM) as [a R]. rewrite (g_hasupdateds _ _ R) in E. unfold look in E. by destruct (am_cells a d !! i).
  - destruct (reachable_rep m RM) as [a R]. rewrite (g_hasupdateds _ _ R) in E. unfold look in E. by destruct (am_cells a d !! i).
  - destruct (reachable_rep m RM) as [a R]. rewrite (g_hasupdateds _ _ R) in E. unfold look in E. by destruct (am_cells a d !! i).
Qed.

Lemma agglomerated_cons f fs m m1 m2 : reachable m -> reachable m1 -> reachable m2 -> joinable (f :: fs) m ->
  agglomerated [f] m m1 -> agglomerated fs m1 m2 -> agglomerated (f :: fs) m m2.
Proof.
  intros RM RM1 RM2 JO A B.
  pose proof (ag_num _ _ _ A) as NA. pose proof (ag_num _ _ _ B) as NB. cbn [length] in NA.
  assert (forall d i, i < num d m -> i < num d m1) as LE by (intros d i L; rewrite NA; lia).
  assert (forall i, retired fs D2 i -> i < num D2 m) as RL.
  { intros i (g & G & [[_ I]|[? _]]); [|done]. apply (fan_lt m g); [done| |done].
    pose proof (jo_fans _ _ JO) as HF. rewrite Forall_forall in HF. apply HF. by right. }
  split.
  - rewrite (ag_dim _ _ _ B). apply (ag_dim _ _ _ A).
  - intros d. rewrite NB, NA. cbn [length]. case_decide; lia.
  - intros d i L H. apply retired_cons in H as [H|H]; [|by apply (ag_off _ _ _ B); auto].
    rewrite (ag_on _ _ _ B); [by apply (ag_off _ _ _ A)|auto|]. intros (g & G & X). destruct H as (f' & ->%elem_of_list_singleton & H).
    pose proof (jo_apart2 _ _ JO) as N2. pose proof (jo_apart1 _ _ JO) as N1. cbn [fmap list_fmap concat] in N2, N1.
    apply NoDup_app in N2 as (_ & N2 & _), N1 as (_ & N1 & _).
    destruct H as [[-> I]|[-> I]], X as [[? J]|[? J]]; try done; [apply (N2 i I)|apply (N1 (N.of_nat i) I)]; by eapply in_concat.
  - intros d i L H. rewrite retired_cons in H. rewrite (ag_on _ _ _ B), (ag_on _ _ _ A) by (tauto || auto). done.
  - intros d i L. rewrite (ag_mark _ _ _ B), (ag_mark _ _ _ A) by auto. done.
  - intros r i L. rewrite (ag_rows _ _ _ B), (ag_rows _ _ _ A) by auto. done.
  - intros i L. rewrite (ag_points _ _ _ B), (ag_points _ _ _ A) by auto. done.
  - intros e L. destruct (ag_ends _ _ _ B e ltac:(auto)) as [-> ->]. by apply (ag_ends _ _ _ A).
  - intros d i ND L. rewrite (ag_original _ _ _ B), (ag_original _ _ _ A) by auto. done.
  - intros d i j L. rewrite (ag_replaced _ _ _ B), (ag_replaced _ _ _ A) by auto. split.
    + intros [[H|(-> & k & g & K & I & ->)]|(-> & k & g & K & I & ->)]; [by left|right|right]; (split; [done|]).
      * destruct k as [|k]; [|done]. injection K as <-. exists 0, f. done.
      * exists (S k), g. rewrite NA, decide_True by done. split_and!; [done..|lia].
    + intros [H|(-> & k & g & K & I & ->)]; [by left; left|]. destruct k as [|k].
      * injection K as <-. left. right. split; [done|]. exists 0, f. done.
      * right. split; [done|]. exists k, g. rewrite NA, decide_True by done. split_and!; [done..|lia].
  - intros k g K. destruct k as [|k].
    + injection K as <-. cbn zeta. rewrite Nat.add_0_r. destruct (ag_new _ _ _ A 0 f eq_refl) as (V & E & S & R3 & MK & AC & UP & t & LT & OR). rewrite Nat.add_0_r in *.
      assert (num D2 m < num D2 m1) as L by (rewrite NA, decide_True by done; lia).
      rewrite !(ag_rows _ _ _ B) by done. rewrite (ag_mark _ _ _ B), (ag_original _ _ _ B) by done.
      rewrite (ag_on _ _ _ B); [|done|intros H%RL; lia]. split_and!; try done; [|by exists t].
      apply upd_none; [done|rewrite NB; lia|]. intros j. rewrite (ag_replaced _ _ _ B) by done. intros [H|(_ & k & g & K & I & _)].
      * assert (HasUpdateds D2 (num D2 m) m1 = Ok true) as X by (apply hasupdateds_replaced; [done|by exists j]). congruence.
      * assert (retired fs D2 (num D2 m)) as X by (exists g; split; [by eapply elem_of_list_lookup_2|by left]). apply RL in X. lia.
    + pose proof (ag_new _ _ _ B k g K) as X. cbn zeta in X. replace (num D2 m + S k) with (num D2 m1 + k) by (rewrite NA, decide_True by done; lia). exact X.
Qed.

(** ** The whole call *)
Lemma join_groups fs : forall m r, reachable m -> joinable fs m ->
  exists m', ofold (fun r ts =>
               g ← join_group ts r.1;
               Ok (g.1.1, JoinedMesh (jm_cells r.2 ++ [(g.1.2, ts)]) (jm_edges r.2 ++ g.2)
                                     (jm_triangles r.2 ++ (N.of_nat <$> ts))))
            (f_triangles <$> fs) (m, r) =
     Ok (m', JoinedMesh (jm_cells r ++ imap (fun k f => (num D2 m + k, f_triangles f)) fs) (jm_edges r ++ concat (inner_spokes <$> fs))
       (jm_triangles r ++ (N.of_nat <$> concat (f_triangles <$> fs)))) /\ reachable m' /\ agglomerated fs m m'.
Proof.
  induction fs as [|f fs IH]; intros m r RM JO.
  { exists m. cbn. rewrite !app_nil_r. destruct r. split; [done|]. split; [done|]. split; try done.
    - intros d. by case_decide; rewrite Nat.add_0_r.
    - intros d i _ (f & ?%elem_of_nil & _). done.
    - intros d i j L. split; [by left|]. intros [H|(_ & k & f & ? & _)]; done. }
  destruct (join_group_ok f m RM (joinable_first _ _ _ JO)) as (m1 & E1 & R1 & A1).
  pose proof (joinable_rest _ _ _ _ RM JO A1) as J1.
  cbn [fmap list_fmap ofold]. cbn [fst snd]. rewrite E1. cbn [mbind outcome_bind fst snd].
  destruct (IH m1 (JoinedMesh (jm_cells r ++ [(num D2 m, f_triangles f)]) (jm_edges r ++ inner_spokes f) (jm_triangles r ++ (N.of_nat <$> f_triangles f))) R1 J1) as (m2 & E2 & R2 & A2).
  exists m2. split; [|split; [done|exact (agglomerated_cons f fs m m1 m2 RM R1 R2 JO A1 A2)]].
  etransitivity; [exact E2|]. cbn [jm_cells jm_edges jm_triangles]. f_equal. f_equal. rewrite imap_cons. cbn [concat]. rewrite fmap_app, <- !app_assoc.
  rewrite Nat.add_0_r. f_equal. f_equal. cbn [app]. f_equal. apply imap_ext. intros k g _. cbn. f_equal.
  rewrite (ag_num _ _ _ A1), decide_True by done. cbn [length]. lia.
Qed.

Lemma agglomerate_all fs m : reachable m -> joinable fs m ->
  exists m' r, AgglomerateMeshFromTriangularMesh (f_triangles <$> fs) m = Ok (m', r) /\ reachable m' /\ agglomerated fs m m' /\
    jm_cells r = imap (fun k f => (num D2 m + k, f_triangles f)) fs /\
    jm_edges r ≡ₚ concat (inner_spokes <$> fs) /\ StronglySorted N.lt (jm_edges r) /\
    jm_triangles r ≡ₚ N.of_nat <$> concat (f_triangles <$> fs) /\ StronglySorted N.lt (jm_triangles r).
Proof.
  intros RM JO. destruct (join_groups fs m (JoinedMesh [] [] []) RM JO) as (m' & E & R & A).
  unfold AgglomerateMeshFromTriangularMesh. rewrite E. cbn [mbind outcome_bind fst snd jm_cells jm_edges jm_triangles app].
  eexists m', _. split; [done|]. cbn [jm_cells jm_edges jm_triangles]. split; [done|]. split; [done|]. split; [done|].
  split; [apply merge_sort_Permutation|]. split; [apply strict_sorted; apply (jo_apart1 _ _ JO)|].
  split; [apply merge_sort_Permutation|]. apply strict_sorted. apply (NoDup_fmap_2 N.of_nat). apply (jo_apart2 _ _ JO).
Qed.
