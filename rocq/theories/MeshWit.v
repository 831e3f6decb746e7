(** Concrete histories: states used by the non-vacuity examples and by the refutations. *)
From Verif Require Import Base BaseProof CsrModel MeshModel MeshSpec MeshHist MeshProof9.

Definition plain (o : op) : bool :=
  match o with OInitialize _ _ | OReset _ _ _ | OPropInsert _ _ _ _ _ => false | _ => true end.

Lemma plain_allowed ops m : forallb plain ops = true -> all_allowed ops m.
Proof.
  revert m. induction ops as [|o ops IH]; intros m Hp; cbn in *; [done|].
  apply andb_true_iff in Hp as [Ho Hp]. split; [by destruct o|]. destruct (step m o); try done. by apply IH.
Qed.

Definition after (ops : list op) : mesh := match run ops empty_mesh with Ok m => m | _ => empty_mesh end.

Lemma after_reachable ops : all_allowed ops empty_mesh -> reachable (after ops).
Proof.
  intros Ha. unfold after. destruct (run_reachable ops empty_mesh reach_empty Ha) as [(m & -> & Hm)| ->]; [done|].
  apply reach_empty.
Qed.

(** A polyline of three vertices; a polygon with a triangulation into one triangle avoiding vertex 0. *)
Definition w_tri : list op :=
  [OAppend D0 4; OCoordinates 0 10 0 0; OCoordinates 1 11 0 0; OCoordinates 2 12 0 0; OCoordinates 3 13 0 0;
   OAppend D1 3; OExtremes 0 1 2; OExtremes 1 2 3; OExtremes 2 3 1;
   OAppend D2 2; OAdd V2 0 [1; 2; 3]%N; OAdd E2 0 [0; 1; 2]%N; OAdd S2 0 [1; 2; 3]%N; OAdd V2 1 [0; 1; 2]%N;
   OInitOne R12 0 2; OInsert R12 0 1 0; OInitOne R12 1 2; OInsert R12 1 0 1; OInsert R12 1 1 0;
   OUpdated D2 0 1; OAddProperty D2 "area"; OPropInitOne D2 0 0 2; OPropInitOne D2 1 0 1].

Lemma w_tri_reachable : reachable (after w_tri).
Proof. apply after_reachable, plain_allowed. done. Qed.

(** Two vertices and an edge; the second vertex is removed. *)
Definition w_edge : list op := [OAppend D0 2; OCoordinates 0 5 0 0; OCoordinates 1 6 0 0; OAppend D1 1; OExtremes 0 0 1].

Lemma w_edge_reachable : reachable (after w_edge).
Proof. apply after_reachable, plain_allowed. done. Qed.

(** One edge replaced by itself. *)
Definition w_self : list op := [OAppend D1 1; OUpdated D1 0 0].

Lemma w_self_reachable : reachable (after w_self).
Proof. apply after_reachable, plain_allowed. done. Qed.

Lemma self_loop fuel : UpdatedQuery fuel D1 0 (after w_self) = OutOfFuel.
Proof.
  induction fuel as [|fuel IH]; [done|]. cbn [UpdatedQuery].
  assert (Hn : (0 <? N.of_nat (num D1 (after w_self)))%N = true) by (vm_compute; reflexivity).
  assert (Hs : (elements <$> cupd (mcells (after w_self) D1) !! 0%N) = Some [0%N]) by (vm_compute; reflexivity).
  rewrite Hn. cbn [require mbind outcome_bind].
  destruct (cupd (mcells (after w_self) D1) !! 0%N) as [s|]; [|done].
  cbn [fmap option_fmap option_map] in Hs. injection Hs as ->. cbn [ofold]. rewrite IH. done.
Qed.

(** Two faces whose vertices are known, then a bulk re-initialisation of the vertex lists. *)
Definition w_refill : list op := [OAppend D0 3; OAppend D2 2; OAdd V2 0 [0; 1; 2]%N].

(** Split a history: the last call succeeds on the mesh reached by the others. *)
Lemma after_snoc ops o m : run ops empty_mesh = Ok m -> run (ops ++ [o]) empty_mesh = step m o.
Proof.
  unfold run. generalize empty_mesh. induction ops as [|o' ops IH]; intros m0; cbn.
  - intros [= ->]. by destruct (step m o).
  - destruct (step m0 o'); try done. cbn. apply IH.
Qed.

Ltac ran ops m E :=
  destruct (run ops empty_mesh) as [m| | | |] eqn:E; [|exfalso; by vm_compute in E..].

Definition okq {A} (ops : list op) (f : mesh -> outcome A) : outcome A := m ← run ops empty_mesh; f m.
Lemma okq_after {A} ops (f : mesh -> outcome A) v : okq ops f = Ok v -> f (after ops) = Ok v.
Proof. unfold okq, after. by destruct (run ops empty_mesh). Qed.

Lemma step_after ops o :
  match run (ops ++ [o]) empty_mesh with Ok _ => True | _ => False end ->
  step (after ops) o = Ok (after (ops ++ [o])).
Proof.
  unfold after. destruct (run ops empty_mesh) as [m| | | |] eqn:E.
  - rewrite (after_snoc ops o m E). by destruct (step m o).
  - intros Hf. exfalso. revert Hf. unfold run in *. rewrite (ofold_app step ops [o]), E. done.
  - intros Hf. exfalso. revert Hf. unfold run in *. rewrite (ofold_app step ops [o]), E. done.
  - intros Hf. exfalso. revert Hf. unfold run in *. rewrite (ofold_app step ops [o]), E. done.
  - intros Hf. exfalso. revert Hf. unfold run in *. rewrite (ofold_app step ops [o]), E. done.
Qed.

Definition succeeds (ops : list op) : bool := match run ops empty_mesh with Ok _ => true | _ => false end.
Lemma succeeds_true ops : succeeds ops = true -> match run ops empty_mesh with Ok _ => True | _ => False end.
Proof. unfold succeeds. by destruct (run ops empty_mesh). Qed.

Lemma remove_after ops d i :
  succeeds (ops ++ [ORemove d i]) = true -> CellRemove d i (after ops) = Ok (after (ops ++ [ORemove d i])).
Proof. intros H. exact (step_after ops (ORemove d i) (succeeds_true _ H)). Qed.
Lemma prop_insert_after ops d i p k v :
  succeeds (ops ++ [OPropInsert d i p k v]) = true ->
  PropInsert d i p k v (after ops) = Ok (after (ops ++ [OPropInsert d i p k v])).
Proof. intros H. exact (step_after ops (OPropInsert d i p k v) (succeeds_true _ H)). Qed.
Lemma init_all_after ops r cnt :
  succeeds (ops ++ [OInitAll r cnt]) = true ->
  RelInitAll r cnt (after ops) = Ok (after (ops ++ [OInitAll r cnt])).
Proof. intros H. exact (step_after ops (OInitAll r cnt) (succeeds_true _ H)). Qed.
Lemma append_after ops d n k :
  (mk ← run ops empty_mesh; p ← CellAppend d n mk; Ok p.2) = Ok k ->
  CellAppend d n (after ops) = Ok (after (ops ++ [OAppend d n]), k).
Proof.
  intros H. apply bind_ok in H as (m & Hm & H). apply bind_ok in H as ([m' k'] & Ha & [= Hk]).
  unfold after at 2. rewrite (after_snoc ops _ m Hm). unfold after. rewrite Hm. cbn [step].
  rewrite Ha. cbn in *. by subst.
Qed.

Lemma subdivision_refuted :
  exists m m' i f k v v', reachable m /\ CellRemove D0 i m = Ok m' /\
    RelGet S2 f k m = Ok (N.of_nat v) /\ v <> i /\ RelGet S2 f k m' = Ok (N.of_nat v') /\
    Cell0DCoordinates v' m' <> Cell0DCoordinates v m.
Proof.
  exists (after w_tri), (after (w_tri ++ [ORemove D0 0])), 0, 0, 0, 1, 1.
  split; [exact w_tri_reachable|]. split; [apply (remove_after w_tri D0 0); vm_compute; reflexivity|].
  split; [vm_compute; reflexivity|]. split; [done|]. split; [vm_compute; reflexivity|]. vm_compute. discriminate.
Qed.

Lemma dangling_refuted :
  exists m m1 m2 i, reachable m /\ Cell1DEnd 0 m = Ok (N.of_nat i) /\ CellRemove D0 i m = Ok m1 /\
    CellAppend D0 1 m1 = Ok (m2, num D0 m1) /\ Cell1DEnd 0 m2 = Ok (N.of_nat (num D0 m1)).
Proof.
  exists (after w_edge), (after (w_edge ++ [ORemove D0 1])), (after ((w_edge ++ [ORemove D0 1]) ++ [OAppend D0 1])), 1.
  split; [exact w_edge_reachable|]. split; [vm_compute; reflexivity|].
  split; [apply (remove_after w_edge D0 1); vm_compute; reflexivity|].
  split; [|vm_compute; reflexivity].
  apply (append_after (w_edge ++ [ORemove D0 1]) D0 1). vm_compute. reflexivity.
Qed.

Lemma cycle_refuted : exists m, reachable m /\ forall fuel, UpdatedQuery fuel D1 0 m = OutOfFuel.
Proof. exists (after w_self). split; [exact w_self_reachable|exact self_loop]. Qed.

Lemma prop_write_refuted :
  exists m m' d i p k v j, reachable m /\ j <> i /\ PropSize d i p m = Ok (N.of_nat k) /\
    PropInsert d i p k v m = Ok m' /\ PropValue d j p 0 m' <> PropValue d j p 0 m.
Proof.
  exists (after w_tri), (after (w_tri ++ [OPropInsert D2 0 0 2 7])), D2, 0, 0, 2, 7%N, 1.
  split; [exact w_tri_reachable|]. split; [done|]. split; [vm_compute; reflexivity|].
  split; [apply (prop_insert_after w_tri D2 0 0 2 7); vm_compute; reflexivity|]. vm_compute. discriminate.
Qed.

Lemma prop_write_ub : exists m d i p k v, reachable m /\ PropInsert d i p k v m = UB.
Proof.
  exists (after w_tri), D2, 0, 0, 3, 7%N. split; [exact w_tri_reachable|]. vm_compute. reflexivity.
Qed.

Lemma grow_refuted :
  exists m n i, reachable m /\ num D2 m < n /\ num D2 m <= i < n /\
    RelNumber V2 i (CellsInitialize D2 n m) <> Ok 0%N.
Proof.
  exists (after w_tri), 3, 2. split; [exact w_tri_reachable|]. split; [vm_compute; lia|].
  split; [vm_compute; lia|]. vm_compute. discriminate.
Qed.

(** After such a call a getter with arguments accepted by its own checks reads out of bounds. *)
Lemma grow_ub : exists m n i k, reachable m /\ RelGet V2 i k (CellsInitialize D2 n m) = UB.
Proof.
  exists (after w_tri), 3, 2, 7. split; [exact w_tri_reachable|]. vm_compute. reflexivity.
Qed.

Lemma find_edge_ub :
  exists m m' e, reachable m /\ CellRemove D1 e m = Ok m' /\ FindEdgeByExtremes E2 0 9 9 m' = UB.
Proof.
  exists (after w_tri), (after (w_tri ++ [ORemove D1 2])), 2. split; [exact w_tri_reachable|].
  split; [apply (remove_after w_tri D1 2); vm_compute; reflexivity|]. vm_compute. reflexivity.
Qed.

Lemma refill_refuted :
  exists m m' cnt i n, reachable m /\ RelInitAll V2 cnt m = Ok m' /\ cnt !! i = Some n /\
    RelRow V2 i m = Ok [] /\ RelRow V2 i m' <> Ok (replicate n UINT_MAX).
Proof.
  exists (after w_refill), (after (w_refill ++ [OInitAll V2 [1; 2]])), [1; 2], 1, 2.
  split; [apply after_reachable, plain_allowed; done|].
  split; [apply (init_all_after w_refill V2 [1; 2]); vm_compute; reflexivity|].
  split; [done|]. split; [vm_compute; reflexivity|]. vm_compute. discriminate.
Qed.
