(** * Properties C01-C13 of the mesh store.

    [reachable m]: [m] is obtained from an empty mesh by successful calls whose unchecked preconditions hold
    (MeshHist.v).  Everything else is stated with the queries of the API (MeshModel.v). *)
From Verif Require Import Base CsrModel MeshModel MeshSpec MeshRep MeshHist MeshProof8 MeshProof9 MeshProofA MeshProofB
  MeshProofD MeshProofE MeshProofF MeshProofG MeshWit.
From stdpp Require Import relations.

(** ** C01: variable-length attributes are read back per cell *)

Theorem C01_resize_one : forall m r i n m',
  reachable m -> RelInitOne r i n m = Ok m' ->
  (exists old, RelRow r i m = Ok old /\
     RelRow r i m' = Ok (take n old ++ replicate (n - length old) (default_single r))) /\
  same_rows_but r i m m' /\ same_values m m' /\ same_props m m'.
Proof. exact init_one_ok. Qed.
Print Assumptions C01_resize_one.

Theorem C01_insert : forall m r i k v m',
  reachable m -> RelInsert r i k v m = Ok m' ->
  (exists old, RelRow r i m = Ok old /\ k < length old /\ (v < N.of_nat (num (tgt r) m))%N /\
     RelRow r i m' = Ok (<[k := v]> old)) /\
  same_rows_but r i m m' /\ same_values m m' /\ same_props m m'.
Proof. exact insert_ok. Qed.
Print Assumptions C01_insert.

Theorem C01_insert_list : forall m r i vs m',
  reachable m -> vs <> [] -> RelInsertList r i vs m = Ok m' ->
  (exists old, RelRow r i m = Ok old /\ length vs <= length old /\
     Forall (fun v => (v < N.of_nat (num (tgt r) m))%N) vs /\
     RelRow r i m' = Ok (vs ++ drop (length vs) old)) /\
  same_rows_but r i m m' /\ same_values m m' /\ same_props m m'.
Proof. exact insert_list_ok. Qed.
Print Assumptions C01_insert_list.

Theorem C01_add : forall m r i vs m',
  reachable m -> RelAdd r i vs m = Ok m' ->
  (RelRow r i m' = Ok vs /\ Forall (fun v => (v < N.of_nat (num (tgt r) m))%N) vs) /\
  same_rows_but r i m m' /\ same_values m m' /\ same_props m m'.
Proof. exact add_ok. Qed.
Print Assumptions C01_add.

Theorem C01_add_vertices_and_edges : forall m i cols m',
  reachable m -> Cell2DAddVerticesAndEdges i cols m = Ok m' ->
  RelRow V2 i m' = Ok (cols.*1) /\ RelRow E2 i m' = Ok (cols.*2) /\
  Forall (fun v => (v < N.of_nat (num D0 m))%N) (cols.*1) /\ Forall (fun v => (v < N.of_nat (num D1 m))%N) (cols.*2) /\
  (forall r j, (r, j) <> (V2, i) -> (r, j) <> (E2, i) -> RelRow r j m' = RelRow r j m).
Proof. exact add_ve_ok. Qed.
Print Assumptions C01_add_vertices_and_edges.

Theorem C01_reset : forall m r i k m',
  reachable m -> allowed m (OReset r i k) -> RelReset r i k m = Ok m' ->
  (exists old, RelRow r i m = Ok old /\ RelRow r i m' = Ok (<[k := UINT_MAX]> old)) /\
  same_rows_but r i m m' /\ same_values m m' /\ same_props m m'.
Proof. exact reset_ok. Qed.
Print Assumptions C01_reset.

Theorem C01_append : forall m d n m' first,
  reachable m -> CellAppend d n m = Ok (m', first) ->
  first = num d m /\ num d m' = num d m + n /\
  (forall d', d' <> d -> num d' m' = num d' m) /\
  (forall r i, src r <> d \/ i < num d m -> RelRow r i m' = RelRow r i m) /\
  (forall r i, src r = d -> num d m <= i < num d m + n -> RelRow r i m' = Ok []) /\
  (forall i, num d m <= i < num d m + n -> Marker d i m' = Ok 0%N /\ IsActive d i m' = Ok false) /\
  (forall d' i, d' <> d \/ i < num d m -> Marker d' i m' = Marker d' i m /\ IsActive d' i m' = IsActive d' i m).
Proof. exact append_ok. Qed.
Print Assumptions C01_append.

(** Bulk initialisation of an attribute no cell has values for. *)
Theorem C01_bulk_empty : forall m r cnt m',
  reachable m -> (forall i, i < num (src r) m -> RelNumber r i m = Ok 0%N) ->
  RelInitAll r cnt m = Ok m' ->
  length cnt = num (src r) m /\
  (forall i n, cnt !! i = Some n -> RelRow r i m' = Ok (replicate n (default_bulk r))) /\
  (forall r' j, r' <> r -> RelRow r' j m' = RelRow r' j m).
Proof. exact init_all_ok. Qed.
Print Assumptions C01_bulk_empty.

(** In general the old values are dealt out again in storage order ... *)
Theorem C01_bulk_exact : forall m r cnt m' olds,
  reachable m -> RelInitAll r cnt m = Ok m' ->
  length olds = num (src r) m -> (forall i l, olds !! i = Some l -> RelRow r i m = Ok l) ->
  forall i l, redeal (default_bulk r) cnt olds !! i = Some l -> RelRow r i m' = Ok l.
Proof. exact init_all_exact. Qed.
Print Assumptions C01_bulk_exact.

(** ... so that a cell may receive values that belonged to another one. *)
Theorem C01_bulk_refuted :
  exists m m' cnt i n, reachable m /\ RelInitAll V2 cnt m = Ok m' /\ cnt !! i = Some n /\
    RelRow V2 i m = Ok [] /\ RelRow V2 i m' <> Ok (replicate n UINT_MAX).
Proof. exact refill_refuted. Qed.
Print Assumptions C01_bulk_refuted.

Theorem C01_property_resize : forall m d i p n m',
  reachable m -> PropInitOne d i p n m = Ok m' ->
  PropSize d i p m' = Ok (N.of_nat n) /\
  (exists old, PropSize d i p m = Ok old /\
     forall k, k < n -> PropValue d i p k m' = if (N.of_nat k <? old)%N then PropValue d i p k m else Ok 0%N) /\
  (forall d' j q k', (d', j, q) <> (d, i, p) ->
     PropSize d' j q m' = PropSize d' j q m /\ PropValue d' j q k' m' = PropValue d' j q k' m) /\
  same_values m m' /\ (forall r j, RelRow r j m' = RelRow r j m).
Proof. exact prop_init_one_ok. Qed.
Print Assumptions C01_property_resize.

Example C01_nonvacuous :
  reachable (after w_tri) /\
  okq (w_tri ++ [OInitOne V2 0 5]) (RelRow V2 0) = Ok [1; 2; 3; 0; 0]%N /\
  okq (w_tri ++ [OInitOne V2 0 5]) (RelRow V2 1) = Ok [0; 1; 2]%N /\
  okq (w_tri ++ [OInitOne R12 0 1; OInitOne R12 0 3]) (RelRow R12 0) = Ok [UINT_MAX; UINT_MAX; UINT_MAX] /\
  okq (w_tri ++ [OInsertList V2 0 [3; 2]%N]) (RelRow V2 0) = Ok [3; 2; 3]%N /\
  okq (w_tri ++ [OAppend D2 2]) (RelRow V2 3) = Ok [].
Proof. split; [exact w_tri_reachable|]. vm_compute. done. Qed.

(** ** C02: structural consistency under every history *)

(** No call has undefined behaviour, throws or loops: it succeeds or stops on an assertion. *)
Theorem C02_calls : forall m o,
  reachable m -> allowed m o -> (exists m', step m o = Ok m' /\ reachable m') \/ step m o = Abort.
Proof. exact no_ub. Qed.
Print Assumptions C02_calls.

Theorem C02_histories : forall ops m,
  reachable m -> all_allowed ops m -> (exists m', run ops m = Ok m' /\ reachable m') \/ run ops m = Abort.
Proof. exact run_reachable. Qed.
Print Assumptions C02_histories.

Theorem C02_getters : forall m,
  reachable m ->
  (forall d i, i < num d m -> exists v, Marker d i m = Ok v) /\
  (forall d i, i < num d m -> exists b, IsActive d i m = Ok b) /\
  (forall i, i < num D0 m -> exists c, Cell0DCoordinates i m = Ok c) /\
  (forall e, e < num D1 m -> exists o, Cell1DOrigin e m = Ok o) /\
  (forall e, e < num D1 m -> exists t, Cell1DEnd e m = Ok t) /\
  (forall r i, i < num (src r) m -> exists n, RelNumber r i m = Ok (N.of_nat n) /\
     (exists l, RelRow r i m = Ok l /\ length l = n) /\
     forall k, k < n -> (exists v, RelGet r i k m = Ok v) /\ exists b, RelHas r i k m = Ok b) /\
  (forall d i, i < num d m -> exists b, HasUpdateds d i m = Ok b) /\
  (forall d i, d <> D0 -> i < num d m -> (exists o, Original d i m = Ok o) /\ exists b, HasOriginal d i m = Ok b) /\
  (forall d i id p, i < num d m -> PropIndex d id m = Ok p ->
     exists n, PropSize d i p m = Ok (N.of_nat n) /\ forall k, k < n -> exists v, PropValue d i p k m = Ok v).
Proof. exact getters_ok. Qed.
Print Assumptions C02_getters.

(** The store behaves like four plain lists of cells (MeshSpec.v), whatever the history. *)
Theorem C02_refines_cell_lists : forall ops m a,
  represents m a -> safe ops a ->
  match run ops m, arun ops a with
  | Ok m', Some a' => represents m' a'
  | Abort, None => True
  | _, _ => False
  end.
Proof. exact run_sim. Qed.
Print Assumptions C02_refines_cell_lists.

Theorem C02_empty_represented : represents empty_mesh aempty.
Proof. exact MeshProof.represents_empty. Qed.
Print Assumptions C02_empty_represented.

(** Without the preconditions of [allowed] it fails: growing the cell count in place. *)
Theorem C02_refuted : exists m n i k, reachable m /\ RelGet V2 i k (CellsInitialize D2 n m) = UB.
Proof. exact grow_ub. Qed.
Print Assumptions C02_refuted.

Example C02_nonvacuous :
  all_allowed w_tri empty_mesh /\ okq w_tri (RelRow E2 0) = Ok [0; 1; 2]%N /\ okq w_tri (PropIndex D2 "area") = Ok 0.
Proof. split; [apply plain_allowed; done|]. vm_compute. done. Qed.

(** ** C03: removal renumbers consistently *)

Theorem C03_counts : forall m d i m',
  reachable m -> CellRemove d i m = Ok m' ->
  i < num d m /\ num d m' = num d m - 1 /\ forall d', d' <> d -> num d' m' = num d' m.
Proof. exact remove_num. Qed.
Print Assumptions C03_counts.

Theorem C03_attributes : forall m d i m' d' j,
  reachable m -> CellRemove d i m = Ok m' -> d' <> d \/ j <> i ->
  let j' := moved d i d' j in
  Marker d' j' m' = Marker d' j m /\
  IsActive d' j' m' = IsActive d' j m /\
  (d' = D0 -> Cell0DCoordinates j' m' = Cell0DCoordinates j m) /\
  (forall p, PropSize d' j' p m' = PropSize d' j p m) /\
  (forall p k, PropValue d' j' p k m' = PropValue d' j p k m).
Proof. exact remove_attributes. Qed.
Print Assumptions C03_attributes.

(** Sub-divisions ([S2]) are the exception, see C04. *)
Theorem C03_references : forall m d i m' r j,
  reachable m -> CellRemove d i m = Ok m' -> src r <> d \/ j <> i ->
  forall l, RelRow r j m = Ok l ->
  exists l', RelRow r (moved d i (src r) j) m' = Ok l' /\ length l' = length l /\
    forall k v, l !! k = Some v ->
      (tgt r <> d \/ r = S2 -> l' !! k = Some v) /\
      (tgt r = d -> r <> S2 -> v <> N.of_nat i -> l' !! k = Some (new_numberN (N.of_nat i) v)) /\
      (tgt r = d -> r <> S2 -> v = N.of_nat i ->
         l' !! k = Some (if is_neighbour r then UINT_MAX else N.of_nat (num d m - 1))).
Proof. exact remove_row_obs. Qed.
Print Assumptions C03_references.

Theorem C03_end_points : forall m d i m' e,
  reachable m -> CellRemove d i m = Ok m' -> d <> D1 \/ e <> i ->
  let e' := moved d i D1 e in
  let f := fun v => if decide (d = D0) then if decide (v = N.of_nat i) then N.of_nat (num D0 m - 1)
                                        else new_numberN (N.of_nat i) v else v in
  Cell1DOrigin e' m' = f <$> Cell1DOrigin e m /\ Cell1DEnd e' m' = f <$> Cell1DEnd e m.
Proof. exact remove_extremes. Qed.
Print Assumptions C03_end_points.

Theorem C03_origins : forall m d i m' d' j,
  reachable m -> CellRemove d i m = Ok m' -> d' <> D0 -> d' <> d \/ j <> i ->
  forall o, Original d' j m = Ok o ->
  Original d' (moved d i d' j) m' =
    Ok (if decide (d' = d) then if decide (o = N.of_nat i) then UINT_MAX else new_numberN (N.of_nat i) o else o).
Proof. exact remove_original. Qed.
Print Assumptions C03_origins.

(** The Has-queries: absent exactly for what was absent before or referred to the removed cell. *)
Theorem C03_has : forall m d i m' r j k,
  reachable m -> CellRemove d i m = Ok m' -> src r <> d \/ j <> i -> r <> S2 -> (N.of_nat (num d m) <= UINT_MAX)%N ->
  forall v, RelGet r j k m = Ok v ->
  RelHas r (moved d i (src r) j) k m' =
    if decide (tgt r = d /\ v = N.of_nat i) then Ok false else RelHas r j k m.
Proof. exact remove_has. Qed.
Print Assumptions C03_has.

(** The list of neighbours is the stored list without the absent ones, in the same order. *)
Theorem C03_neighbours : forall m r i l,
  reachable m -> RelRow r i m = Ok l ->
  RelNeighbours r i m = Ok (filter (fun v => (v < N.of_nat (num (tgt r) m))%N) l).
Proof. exact neighbours_spec. Qed.
Print Assumptions C03_neighbours.

Example C03_nonvacuous :
  reachable (after w_tri) /\ CellRemove D0 0 (after w_tri) = Ok (after (w_tri ++ [ORemove D0 0])) /\
  okq (w_tri ++ [ORemove D0 0]) (RelRow V2 0) = Ok [0; 1; 2]%N /\
  okq (w_tri ++ [ORemove D0 0]) (RelRow V2 1) = Ok [3; 0; 1]%N /\
  okq (w_tri ++ [ORemove D0 0]) (Cell1DEnd 0) = Ok 1%N /\
  okq (w_tri ++ [ORemove D2 1]) (RelRow R12 1) = Ok [UINT_MAX; 0]%N /\
  okq (w_tri ++ [ORemove D2 1]) (RelNeighbours R12 1) = Ok [0]%N.
Proof.
  split; [exact w_tri_reachable|]. split; [apply (remove_after w_tri D0 0); vm_compute; reflexivity|]. vm_compute. done.
Qed.

(** ** C04: sub-divisions and vertex removal *)

Theorem C04_refuted :
  exists m m' i f k v v', reachable m /\ CellRemove D0 i m = Ok m' /\
    RelGet S2 f k m = Ok (N.of_nat v) /\ v <> i /\ RelGet S2 f k m' = Ok (N.of_nat v') /\
    Cell0DCoordinates v' m' <> Cell0DCoordinates v m.
Proof. exact subdivision_refuted. Qed.
Print Assumptions C04_refuted.

(** What does hold: the points numbered below the removed vertex. *)
Theorem C04_below_partial : forall m i m' f l k v,
  reachable m -> CellRemove D0 i m = Ok m' -> RelRow S2 f m = Ok l -> l !! k = Some (N.of_nat v) -> v < i ->
  exists l', RelRow S2 f m' = Ok l' /\ l' !! k = Some (N.of_nat v) /\
    Cell0DCoordinates v m' = Cell0DCoordinates v m.
Proof. exact subdivision_below. Qed.
Print Assumptions C04_below_partial.

(** ** C05: an absent neighbour or origin stays absent *)

Theorem C05_neighbours : forall ops m m' r j j' k,
  reachable m -> Forall (fun o => match o with ORemove _ _ => True | _ => False end) ops -> run ops m = Ok m' -> r <> S2 ->
  follow_all ops (src r) j = Some j' -> RelHas r j k m = Ok false -> RelHas r j' k m' = Ok false.
Proof. exact removals_absent. Qed.
Print Assumptions C05_neighbours.

Theorem C05_origins : forall ops m m' d j j',
  reachable m -> Forall (fun o => match o with ORemove _ _ => True | _ => False end) ops -> run ops m = Ok m' -> d <> D0 ->
  follow_all ops d j = Some j' -> HasOriginal d j m = Ok false -> HasOriginal d j' m' = Ok false.
Proof. exact removals_no_origin. Qed.
Print Assumptions C05_origins.

(** Any history that does not write the slot, as long as the number of cells ever created fits. *)
Theorem C05_neighbours_any_history : forall ops m m' r j j' k v,
  reachable m -> all_allowed ops m -> run ops m = Ok m' -> r <> S2 ->
  follow_all ops (src r) j = Some j' -> never (fun o => writes_row o r) ops (src r) j ->
  RelGet r j k m = Ok v -> (N.of_nat (num (tgt r) m + created (tgt r) ops m) <= v)%N ->
  RelHas r j' k m' = Ok false.
Proof. exact slot_history. Qed.
Print Assumptions C05_neighbours_any_history.

Theorem C05_origins_any_history : forall ops m m' d j j' v,
  reachable m -> all_allowed ops m -> run ops m = Ok m' -> d <> D0 ->
  follow_all ops d j = Some j' -> never (fun o => writes_origin o d) ops d j ->
  Original d j m = Ok v -> (N.of_nat (num d m + created d ops m) <= v)%N ->
  HasOriginal d j' m' = Ok false.
Proof. exact origin_history. Qed.
Print Assumptions C05_origins_any_history.

Example C05_nonvacuous :
  reachable (after w_tri) /\ okq w_tri (RelHas R12 0 0) = Ok false /\
  follow_all [ORemove D2 0; ORemove D1 1; ORemove D2 0] D1 0 = Some 0 /\
  okq (w_tri ++ [ORemove D2 0; ORemove D1 1; ORemove D2 0]) (RelRow R12 0) = Ok [UINT_MAX - 2; UINT_MAX - 1]%N.
Proof. split; [exact w_tri_reachable|]. vm_compute. done. Qed.

(** ** C06: a reference to a removed cell stays dangling *)

Theorem C06_refuted :
  exists m m1 m2 i, reachable m /\ Cell1DEnd 0 m = Ok (N.of_nat i) /\ CellRemove D0 i m = Ok m1 /\
    CellAppend D0 1 m1 = Ok (m2, num D0 m1) /\ Cell1DEnd 0 m2 = Ok (N.of_nat (num D0 m1)).
Proof. exact dangling_refuted. Qed.
Print Assumptions C06_refuted.

(** It does hold as long as no cell of the referenced dimension is created. *)
Theorem C06_entries_partial : forall ops m m' r j j' k v,
  reachable m -> all_allowed ops m -> run ops m = Ok m' -> r <> S2 ->
  follow_all ops (src r) j = Some j' -> never (fun o => writes_row o r) ops (src r) j ->
  created (tgt r) ops m = 0 ->
  RelGet r j k m = Ok v -> (N.of_nat (num (tgt r) m) <= v)%N ->
  RelHas r j' k m' = Ok false.
Proof. exact dangling_entries. Qed.
Print Assumptions C06_entries_partial.

Theorem C06_end_points_partial : forall ops m m' q j j' v,
  q = Cell1DOrigin \/ q = Cell1DEnd ->
  reachable m -> all_allowed ops m -> run ops m = Ok m' ->
  follow_all ops D1 j = Some j' -> never writes_extremes ops D1 j ->
  q j m = Ok v -> (N.of_nat (num D0 m + created D0 ops m) <= v)%N ->
  exists v', q j' m' = Ok v' /\ (N.of_nat (num D0 m') <= v')%N.
Proof. exact extreme_history. Qed.
Print Assumptions C06_end_points_partial.

Example C06_nonvacuous :
  okq (w_edge ++ [ORemove D0 1]) (Cell1DEnd 0) = Ok 1%N /\ num D0 (after (w_edge ++ [ORemove D0 1])) = 1 /\
  okq (w_edge ++ [ORemove D0 1; ORemove D0 0]) (Cell1DEnd 0) = Ok 0%N /\
  num D0 (after (w_edge ++ [ORemove D0 1; ORemove D0 0])) = 0.
Proof. vm_compute. done. Qed.

(** ** C07: genealogy survives removals *)

Theorem C07_replacements : forall m d i m' d' p q,
  reachable m -> CellRemove d i m = Ok m' ->
  (d' <> d \/ p <> i) -> (d' <> d \/ q <> i) ->
  replaced_by d' m' (moved d i d' p) (moved d i d' q) <-> replaced_by d' m p q.
Proof. exact remove_replaced. Qed.
Print Assumptions C07_replacements.

(** "Has replacements" is exactly "some cell replaces it", before and after. *)
Theorem C07_has_replacements : forall m d i,
  reachable m -> HasUpdateds d i m = Ok true <-> exists j, replaced_by d m i j.
Proof. exact hasupdateds_replaced. Qed.
Print Assumptions C07_has_replacements.

Example C07_nonvacuous :
  okq w_tri (HasUpdated D2 0 1) = Ok true /\ okq w_tri (HasUpdateds D2 0) = Ok true /\
  okq (w_tri ++ [ORemove D2 1]) (HasUpdateds D2 0) = Ok false /\
  okq (OAppend D2 1 :: [OUpdated D2 0 0; OAppend D2 2; OUpdated D2 2 1; ORemove D2 0]) (HasUpdated D2 1 0) = Ok true.
Proof. vm_compute. done. Qed.

(** ** C08: descendants are the leaves *)

Theorem C08_leaves : forall m d c,
  reachable m -> c < num d m -> Acc (fun y x => replaced_by d m x y) c ->
  exists fuel b l, UpdatedQuery fuel d (N.of_nat c) m = Ok (b, l) /\
    (b = true <-> current d m c) /\
    forall v, v ∈ l <-> exists j, v = N.of_nat j /\ rtc (replaced_by d m) c j /\ current d m j.
Proof. exact query_spec. Qed.
Print Assumptions C08_leaves.

Theorem C08_acyclic_terminates : forall m d c,
  reachable m -> (forall x, ~ tc (replaced_by d m) x x) -> Acc (fun y x => replaced_by d m x y) c.
Proof. exact acyclic_acc. Qed.
Print Assumptions C08_acyclic_terminates.

(** The answer does not depend on the bound once it is large enough. *)
Theorem C08_fuel_irrelevant : forall fuel fuel' d c m r,
  fuel <= fuel' -> UpdatedQuery fuel d c m = Ok r -> UpdatedQuery fuel' d c m = Ok r.
Proof. exact query_mono_le. Qed.
Print Assumptions C08_fuel_irrelevant.

Example C08_nonvacuous :
  okq [OAppend D1 5; OUpdated D1 0 1; OUpdated D1 0 2; OUpdated D1 2 3; OUpdated D1 2 4] (UpdatedQuery 5 D1 0)
    = Ok (false, [1; 3; 4]%N).
Proof. vm_compute. done. Qed.

(** ** C09: genealogy queries terminate -- refuted: a cell replaced by itself *)

Theorem C09_refuted : exists m, reachable m /\ forall fuel, UpdatedQuery fuel D1 0 m = OutOfFuel.
Proof. exact cycle_refuted. Qed.
Print Assumptions C09_refuted.

(** ** C10: origin and replacement agree *)

Theorem C10_agree : forall ops m d,
  all_allowed ops empty_mesh -> run ops empty_mesh = Ok m -> d <> D0 ->
  (N.of_nat (created d ops empty_mesh) <= UINT_MAX)%N ->
  forall j i, Original d j m = Ok (N.of_nat i) -> HasOriginal d j m = Ok true -> replaced_by d m i j.
Proof. exact origin_agree_history. Qed.
Print Assumptions C10_agree.

Example C10_nonvacuous :
  all_allowed w_tri empty_mesh /\ okq w_tri (Original D2 1) = Ok 0%N /\ okq w_tri (HasOriginal D2 1) = Ok true /\
  created D2 w_tri empty_mesh = 2.
Proof. split; [apply plain_allowed; done|]. vm_compute. done. Qed.

(** ** C11: double-property writes *)

Theorem C11_in_range : forall m d i p k v m' n,
  reachable m -> PropInsert d i p k v m = Ok m' -> PropSize d i p m = Ok n -> (N.of_nat k < n)%N ->
  PropSize d i p m' = Ok n /\ PropValue d i p k m' = Ok v /\
  (forall k', k' <> k -> PropValue d i p k' m' = PropValue d i p k' m) /\
  (forall d' j q k', (d', j, q) <> (d, i, p) ->
     PropSize d' j q m' = PropSize d' j q m /\ PropValue d' j q k' m' = PropValue d' j q k' m) /\
  same_values m m' /\ (forall r j, RelRow r j m' = RelRow r j m).
Proof. exact prop_insert_ok. Qed.
Print Assumptions C11_in_range.

(** The position is not checked: one past the end overwrites the next cell's value ... *)
Theorem C11_refuted :
  exists m m' d i p k v j, reachable m /\ j <> i /\ PropSize d i p m = Ok (N.of_nat k) /\
    PropInsert d i p k v m = Ok m' /\ PropValue d j p 0 m' <> PropValue d j p 0 m.
Proof. exact prop_write_refuted. Qed.
Print Assumptions C11_refuted.

(** ... and past the last cell it writes out of bounds. *)
Theorem C11_out_of_bounds_refuted : exists m d i p k v, reachable m /\ PropInsert d i p k v m = UB.
Proof. exact prop_write_ub. Qed.
Print Assumptions C11_out_of_bounds_refuted.

Example C11_nonvacuous :
  okq (w_tri ++ [OPropInsert D2 0 0 1 7]) (PropValue D2 0 0 1) = Ok 7%N /\
  okq (w_tri ++ [OPropInsert D2 0 0 1 7]) (PropValue D2 1 0 0) = Ok 0%N.
Proof. vm_compute. done. Qed.

(** ** C12: growing in place *)

Theorem C12_empty_attributes_partial : forall m d n,
  reachable m -> allowed m (OInitialize d n) ->
  let m' := CellsInitialize d n m in
  num d m' = n /\
  (forall r i, src r <> d \/ i < num d m -> RelRow r i m' = RelRow r i m) /\
  (forall r i, src r = d -> num d m <= i < n -> RelRow r i m' = Ok []) /\
  (forall d' i, d' <> d \/ i < num d m -> Marker d' i m' = Marker d' i m /\ IsActive d' i m' = IsActive d' i m).
Proof. exact initialize_ok. Qed.
Print Assumptions C12_empty_attributes_partial.

Theorem C12_refuted :
  exists m n i, reachable m /\ num D2 m < n /\ num D2 m <= i < n /\
    RelNumber V2 i (CellsInitialize D2 n m) <> Ok 0%N.
Proof. exact grow_refuted. Qed.
Print Assumptions C12_refuted.

(** ** C13: look-ups *)

Theorem C13_edge_by_end_points : forall m o t,
  reachable m -> o < num D0 m -> t < num D0 m ->
  exists f, Cell1DByExtremes (N.of_nat o) (N.of_nat t) m = Ok f /\ f <= num D1 m /\
    (forall g, g < f -> ~ (Cell1DOrigin g m = Ok (N.of_nat o) /\ Cell1DEnd g m = Ok (N.of_nat t))) /\
    (f < num D1 m -> Cell1DOrigin f m = Ok (N.of_nat o) /\ Cell1DEnd f m = Ok (N.of_nat t)).
Proof. exact by_extremes_spec. Qed.
Print Assumptions C13_edge_by_end_points.

Theorem C13_find_in_cell : forall m r i v l,
  RelRow r i m = Ok l ->
  exists f, RelFind r i v m = Ok f /\ f <= length l /\
    (forall k, k < f -> l !! k <> Some v) /\ (f < length l -> l !! f = Some v).
Proof. exact rel_find_spec. Qed.
Print Assumptions C13_find_in_cell.

Theorem C13_find_edge_in_cell : forall m r i o t edges,
  reachable m -> RelRow r i m = Ok edges -> Forall (fun e => (e < N.of_nat (num D1 m))%N) edges ->
  exists f, FindEdgeByExtremes r i o t m = Ok f /\ f <= length edges /\
    (forall k e, k < f -> edges !! k = Some e ->
       ~ (Cell1DOrigin (N.to_nat e) m = Ok o /\ Cell1DEnd (N.to_nat e) m = Ok t)) /\
    (forall e, edges !! f = Some e ->
       Cell1DOrigin (N.to_nat e) m = Ok o /\ Cell1DEnd (N.to_nat e) m = Ok t).
Proof. exact find_edge_in_cell. Qed.
Print Assumptions C13_find_edge_in_cell.

Theorem C13_find_end_point : forall m e v o t,
  Cell1DOrigin e m = Ok o -> Cell1DEnd e m = Ok t -> (v < N.of_nat (num D0 m))%N ->
  Cell1DFindExtreme e v m = Ok (if decide (v = o) then 0 else if decide (v = t) then 1 else 2).
Proof. exact find_extreme_spec. Qed.
Print Assumptions C13_find_end_point.

(** The hypothesis on the edges is needed: after removing an edge of the cell the look-up reads out of bounds. *)
Theorem C13_find_edge_refuted :
  exists m m' e, reachable m /\ CellRemove D1 e m = Ok m' /\ FindEdgeByExtremes E2 0 9 9 m' = UB.
Proof. exact find_edge_ub. Qed.
Print Assumptions C13_find_edge_refuted.

Example C13_nonvacuous :
  okq w_tri (Cell1DByExtremes 2 3) = Ok 1 /\ okq w_tri (Cell1DByExtremes 3 2) = Ok 3 /\
  okq w_tri (Cell1DFindExtreme 1 3) = Ok 1 /\ okq w_tri (Cell1DFindExtreme 1 1) = Ok 2 /\
  okq w_tri (FindEdgeByExtremes E2 0 3 1) = Ok 2 /\ okq w_tri (RelFind V2 0 3) = Ok 2 /\ okq w_tri (RelFind V2 0 0) = Ok 3.
Proof. vm_compute. done. Qed.
