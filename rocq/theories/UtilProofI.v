(** Neighbours after a split (C50), and examples for splitting. *)
From Verif Require Import Base BaseProof CsrModel CsrSpec CsrProof MeshModel MeshSpec MeshRep MeshHist
  MeshProof8 MeshProg MeshWit UtilModel UtilSpec UtilProofC UtilProofE UtilProofH.
From Coq Require Import ZifyBool ZifyNat ZifyN.

Lemma redirected_replaced r parent rows m m' :
  parent < num (tgt r) m -> redirected r parent rows m m' -> references_replaced r parent rows m m'.
Proof.
  intros Hp H v row l l' Hv Hrow Hin Hl Hl'. destruct (H v Hv) as (l0 & E & E'). rewrite Hl in E. injection E as <-.
  rewrite Hl' in E'. injection E' as ->. rewrite fmap_length. split; [done|].
  destruct (list_find (fun row => N.of_nat v ∈ row) rows) as [[c row']|] eqn:Ef.
  - apply list_find_Some in Ef as (Hc & Hin' & _). split.
    + intros (w & Hw & _)%elem_of_list_fmap. destruct (w =? N.of_nat parent)%N eqn:Ew; lia.
    + intros k Hk. exists c, row'. rewrite list_lookup_fmap, Hk. cbn. rewrite N.eqb_refl. done.
  - apply list_find_None in Ef. rewrite Forall_forall in Ef. by destruct (Ef row Hrow).
Qed.

(** A square with a prepared diagonal. *)
Definition w_square : list op :=
  [OInitDimension 2; OAppend D0 4; OCoordinates 0 0 0 0; OCoordinates 1 1 0 0; OCoordinates 2 1 1 0; OCoordinates 3 0 1 0;
   OState D0 0 true; OState D0 1 true; OState D0 2 true; OState D0 3 true;
   OAppend D1 5; OExtremes 0 0 1; OExtremes 1 1 2; OExtremes 2 2 3; OExtremes 3 3 0; OExtremes 4 0 2;
   OState D1 0 true; OState D1 1 true; OState D1 2 true; OState D1 3 true; OState D1 4 true;
   OAppend D2 1; OAdd V2 0 [0; 1; 2; 3]%N; OAdd E2 0 [0; 1; 2; 3]%N; OState D2 0 true; OMarker D2 0 7;
   OInitConst R02 1; OInsert R02 0 0 0; OInsert R02 1 0 0; OInsert R02 2 0 0; OInsert R02 3 0 0;
   OInitConst R12 2; OInsert R12 0 1 0; OInsert R12 1 1 0; OInsert R12 2 1 0; OInsert R12 3 1 0;
   OInitOne R01 0 2; OInsert R01 0 0 0; OInsert R01 0 1 3; OInitOne R01 1 2; OInsert R01 1 0 0; OInsert R01 1 1 1].
Lemma w_square_reachable : reachable (after w_square).
Proof. apply after_reachable, plain_allowed. done. Qed.

Definition two_triangles : list (list (N * N)) := [[(0, 0); (1, 1); (2, 4)]; [(0, 4); (2, 2); (3, 3)]]%N.

Definition show_polygons (m : mesh) : outcome (list nat * list (list N) * list (list N) * N) :=
  r ← SplitCell2D 0 two_triangles m;
  l ← omapM (fun v => RelRow R02 v r.1) [0; 1; 2; 3]; e ← omapM (fun e => RelRow R12 e r.1) [0; 1; 2; 3; 4];
  k ← Marker D2 2 r.1; Ok (r.2, l, e, k).
Definition show_edges (m : mesh) : outcome (list nat * list (list N) * list (list N) * bool) :=
  r ← SplitCell1D 0 [(0, 2); (2, 1)]%N m;
  l ← omapM (fun v => RelRow R01 v r.1) [0; 1]; e ← omapM (fun e => RelRow R12 e r.1) [5; 6];
  b ← IsActive D1 0 r.1; Ok (r.2, l, e, b).
Definition show_square (m : mesh) : outcome (nat * list N * list N * bool) :=
  r ← SplitCell2D 0 two_triangles m; l ← RelRow R02 0 r.1; v ← RelRow V2 2 r.1; b ← IsActive D2 2 r.1;
  Ok (num D2 r.1, l, v, b).

Lemma split_examples :
  reachable (after w_square) /\ 0 < num D2 (after w_square) /\
  Forall (fun s => all_below (num D0 (after w_square)) (s.*1) /\ all_below (num D1 (after w_square)) (s.*2)) two_triangles /\
  okq w_square show_polygons
    = Ok ([1; 2], [[1%N]; [1%N]; [1%N]; [2%N]],
          [[UINT_MAX; 1%N]; [UINT_MAX; 1%N]; [UINT_MAX; 2%N]; [UINT_MAX; 2%N]; [UINT_MAX; UINT_MAX]], 7%N) /\
  okq w_square show_edges
    = Ok ([5; 6], [[5%N; 3%N]; [6%N; 1%N]], [[UINT_MAX; 0%N]; [UINT_MAX; 0%N]], false).
Proof.
  split; [exact w_square_reachable|]. split; [vm_compute; lia|].
  split; [repeat constructor|]. vm_compute. done.
Qed.

(** The second triangle also has vertices 0 and 2, but their lists mention only the first. *)
Lemma square_run :
  (m ← run w_square empty_mesh; show_square m) = Ok (3, [1%N], [0%N; 2%N; 3%N], true).
Proof. vm_compute. reflexivity. Qed.

Definition one_polygon_b (m : mesh) : bool :=
  forallb (fun v => match RelRow R02 v m with Ok l => bool_decide (0%N ∈ l) | _ => false end) (seq 0 (num D0 m)) && (num D2 m =? 1).

Lemma one_polygon_complete m : reachable m -> one_polygon_b m = true -> neighbours_complete R02 V2 m.
Proof.
  intros Hr H. apply andb_prop in H as [H H2]. apply Nat.eqb_eq in H2. rewrite forallb_forall in H.
  intros v c lc Hv Hc _ _. cbn [src tgt] in *. specialize (H v ltac:(apply in_seq; lia)).
  assert (Hc0 : c = 0). { destruct (rr_of m Hr) as [a [_ R]]. unfold active in Hc. rewrite (g_active _ _ R) in Hc.
    unfold look in Hc. destruct (am_cells a D2 !! c) eqn:E; [|done]. apply lookup_lt_Some in E. fold (anum D2 a) in E.
    rewrite <- (g_num _ _ R) in E. lia. }
  subst c. destruct (RelRow R02 v m) as [l| | | |]; [|done..]. exists l. split; [done|].
  by apply bool_decide_eq_true in H.
Qed.

Lemma square_one : one_polygon_b (after w_square) = true.
Proof. vm_compute. reflexivity. Qed.
Lemma square_vertices : (0 <? num D0 (after w_square)) = true.
Proof. vm_compute. reflexivity. Qed.

Lemma split_incomplete :
  exists m parent subs m' ids, reachable m /\ parent < num D2 m /\
    Forall (fun s => all_below (num D0 m) (s.*1) /\ all_below (num D1 m) (s.*2)) subs /\
    neighbours_complete R02 V2 m /\ SplitCell2D parent subs m = Ok (m', ids) /\ ~ neighbours_complete R02 V2 m'.
Proof.
  pose proof square_run as Ht. apply bind_ok in Ht as (m & Em & Ht). unfold show_square in Ht. apply bind_ok in Ht as ([m' ids] & Es & Ht).
  cbn [fst] in Ht. apply bind_ok in Ht as (l & El & Ht). apply bind_ok in Ht as (v & Ev & Ht). apply bind_ok in Ht as (b & Eb & Ht).
  injection Ht as Hn -> -> ->.
  assert (Ha : after w_square = m) by (unfold after; by rewrite Em).
  pose proof split_examples as (Hr & Hp & Hf & _). rewrite Ha in Hr, Hp, Hf. pose proof square_one as Hb. rewrite Ha in Hb.
  pose proof square_vertices as Hv. rewrite Ha in Hv. clear Ha Em. apply one_polygon_complete in Hb; [|exact Hr].
  exists m, 0, two_triangles, m', ids. split; [exact Hr|]. split; [exact Hp|]. split; [exact Hf|]. split; [exact Hb|]. split; [exact Es|].
  intros Hc. destruct (Hc 0 2 [0; 2; 3]%N) as (l & E & Hin).
  - destruct (split_polygon m 0 two_triangles Hr Hp Hf) as (m1 & E1 & _ & Hfr & _). rewrite Es in E1. injection E1 as -> _.
    destruct Hfr as (_ & Hnum & _). cbn [src]. rewrite (Hnum D0). apply Nat.ltb_lt in Hv. lia.
  - unfold active; cbn [tgt]; rewrite Eb; exact I.
  - exact Ev.
  - apply elem_of_list_here.
  - rewrite El in E. injection E as <-. apply elem_of_list_singleton in Hin. done.
Qed.

(** Two polyhedra sharing a face; the first is split along a prepared face. *)
Definition w_solid : list op :=
  [OInitDimension 3; OAppend D0 6; OAppend D1 3; OExtremes 0 0 1; OExtremes 1 1 2; OExtremes 2 2 0; OAppend D2 2;
   OAdd V2 0 [0; 1; 2]%N; OAdd E2 0 [0; 1; 2]%N; OAdd V2 1 [1; 2; 3]%N;
   OAppend D3 2; OAdd V3 0 [0; 1; 2; 3; 4]%N; OAdd E3 0 [0; 1; 2]%N; OAdd F3 0 [0]%N; OAdd V3 1 [0; 1; 2; 5]%N; OAdd F3 1 [0]%N;
   OState D3 0 true; OState D3 1 true; OMarker D3 0 5;
   OInitConst R03 2; OInsert R03 0 0 0; OInsert R03 0 1 1; OInsert R03 1 0 0; OInsert R03 3 0 0; OInsert R03 4 0 0;
   OInitConst R23 2; OInsert R23 0 0 0; OInsert R23 0 1 1].
Lemma w_solid_reachable : reachable (after w_solid).
Proof. apply after_reachable, plain_allowed. done. Qed.

Definition solid_vs : list (list N) := [[0; 1; 2; 3]; [1; 2; 3; 4]]%N.
Definition solid_es : list (list N) := [[0; 1; 2]; [1]]%N.
Definition solid_fs : list (list N) := [[0; 1]; [1]]%N.
Definition show_solid (m : mesh) : outcome (list nat * list (list N) * list N * bool * N) :=
  r ← SplitCell3D 0 solid_vs solid_es solid_fs m;
  l ← omapM (fun v => RelRow R03 v r.1) [0; 1; 3; 4]; f ← RelRow R23 0 r.1;
  b ← IsActive D3 0 r.1; k ← Marker D3 3 r.1; Ok (r.2, l, f, b, k).

Lemma solid_example :
  reachable (after w_solid) /\ 0 < num D3 (after w_solid) /\ Forall (all_below (num D0 (after w_solid))) solid_vs /\
  Forall (all_below (num D1 (after w_solid))) solid_es /\ Forall (all_below (num D2 (after w_solid))) solid_fs /\
  okq w_solid show_solid
    = Ok ([2; 3], [[2%N; 1%N]; [2%N; UINT_MAX]; [2%N; UINT_MAX]; [3%N; UINT_MAX]], [2%N; 1%N], false, 5%N).
Proof.
  split; [exact w_solid_reachable|]. split; [vm_compute; lia|].
  split; [repeat constructor|]. split; [repeat constructor|]. split; [repeat constructor|]. vm_compute. reflexivity.
Qed.

Lemma stale_edge m parent subs m' ids :
  reachable m -> parent < num D1 m -> Forall (fun s => (s.1 < N.of_nat (num D0 m))%N /\ (s.2 < N.of_nat (num D0 m))%N) subs ->
  SplitCell1D parent subs m = Ok (m', ids) -> references_replaced R01 parent ((fun s => [s.1; s.2]) <$> subs) m m'.
Proof.
  intros Hr Hp Hs E. destruct (split_edge m parent subs Hr Hp Hs) as (m1 & E1 & _ & _ & _ & _ & _ & _ & H & _).
  rewrite E in E1. injection E1 as -> _. by apply redirected_replaced.
Qed.

Lemma stale_polygon m parent subs m' ids :
  reachable m -> parent < num D2 m -> Forall (fun s => all_below (num D0 m) (s.*1) /\ all_below (num D1 m) (s.*2)) subs ->
  SplitCell2D parent subs m = Ok (m', ids) ->
  references_replaced R02 parent ((fun s => s.*1) <$> subs) m m' /\ references_replaced R12 parent ((fun s => s.*2) <$> subs) m m'.
Proof.
  intros Hr Hp Hs E. destruct (split_polygon m parent subs Hr Hp Hs) as (m1 & E1 & _ & _ & _ & _ & _ & H1 & H2 & _).
  rewrite E in E1. injection E1 as -> _. split; by apply redirected_replaced.
Qed.

Lemma stale_polyhedron m parent vs es fs m' ids :
  reachable m -> parent < num D3 m -> length es = length vs -> length fs = length vs ->
  Forall (all_below (num D0 m)) vs -> Forall (all_below (num D1 m)) es -> Forall (all_below (num D2 m)) fs ->
  SplitCell3D parent vs es fs m = Ok (m', ids) ->
  references_replaced R03 parent vs m m' /\ references_replaced R13 parent es m m' /\ references_replaced R23 parent fs m m'.
Proof.
  intros Hr Hp Hl1 Hl2 Hv He Hf E.
  destruct (split_polyhedron m parent vs es fs Hr Hp Hl1 Hl2 Hv He Hf) as (m1 & E1 & _ & _ & _ & _ & H1 & H2 & H3 & _).
  rewrite E in E1. injection E1 as -> _. split; [|split]; by apply redirected_replaced.
Qed.
