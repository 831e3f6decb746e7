(** * Chains of edges, split edges, and the polygons on both sides of an edge: everything which does not depend on the store. *)
From Verif Require Import Base MeshModel.

(** What the proofs need to know about a mesh. *)
Record view := View {
  vn : dim -> N;                         (* number of cells *)
  va : dim -> N -> bool;                 (* active cells *)
  ve : N -> option (N * N);              (* ends of the edges *)
  vp : N -> option (list (N * N));       (* polygons *)
  vr : N -> option (list N);             (* polygons next to an edge *)
  vu : N -> bool                         (* polygons which have been replaced *)
}.

(** ** Chains *)
Definition start (l : list (N * N)) (w : N) : N := match l with [] => w | p :: _ => p.1 end.
Definition joined (V : view) (e v w : N) : Prop := ve V e = Some (v, w) \/ ve V e = Some (w, v).
Fixpoint linked (V : view) (l : list (N * N)) (w : N) : Prop :=
  match l with
  | [] => True
  | p :: l => joined V p.2 p.1 (start l w) /\ linked V l w
  end.

Lemma start_app l k w : start (l ++ k) w = start l (start k w).
Proof. by destruct l. Qed.

Lemma linked_app V l k w : linked V (l ++ k) w <-> linked V l (start k w) /\ linked V k w.
Proof.
  induction l as [|p l IH]; cbn; [tauto|]. rewrite IH, start_app. tauto.
Qed.

Lemma linked_mono V V' l w : (forall e v w, (exists u, (u, e) ∈ l) -> joined V e v w -> joined V' e v w) -> linked V l w -> linked V' l w.
Proof.
  intros H. induction l as [|[v e] l IH]; cbn; [done|]. intros [H1 H2]. split.
  - apply H; [|done]. exists v. apply elem_of_list_here.
  - apply IH; [|done]. intros e' v' w' [u Hu]. apply H. exists u. by apply elem_of_list_further.
Qed.

(** A proper polygon. *)
Record good (V : view) (l : list (N * N)) : Prop := {
  gd_len : 3 <= length l;
  gd_vs : NoDup (l.*1);
  gd_es : NoDup (l.*2);
  gd_act : forall v e, (v, e) ∈ l -> va V D0 v = true /\ va V D1 e = true;
  gd_link : linked V l (start l 0)
}.

Definition rot (l k : list (N * N)) : Prop := exists x y, l = x ++ y /\ k = y ++ x.

Lemma rot_refl l : rot l l.
Proof. exists [], l. by rewrite app_nil_r. Qed.

Lemma rot_perm l k : rot l k -> l ≡ₚ k.
Proof. intros (x & y & -> & ->). apply Permutation_app_comm. Qed.

Lemma start_ne l w w' : l <> [] -> start l w = start l w'.
Proof. by destruct l. Qed.

Lemma rot_linked V l k : rot l k -> linked V l (start l 0) -> linked V k (start k 0).
Proof.
  intros (x & y & -> & ->). rewrite !linked_app, !start_app.
  destruct x as [|p x]; [cbn; tauto|]. destruct y as [|q y]; [cbn; tauto|]. cbn. tauto.
Qed.

Lemma rot_good V l k : rot l k -> good V l -> good V k.
Proof.
  intros R [H1 H2 H3 H4 H5]. pose proof (rot_perm l k R) as Q. split.
  - by rewrite <- Q.
  - by rewrite <- Q.
  - by rewrite <- Q.
  - intros v e. rewrite <- Q. apply H4.
  - by eapply rot_linked.
Qed.

Lemma good_mono V V' l :
  (forall v, va V D0 v = true -> va V' D0 v = true) ->
  (forall v e, (v, e) ∈ l -> va V D1 e = true -> va V' D1 e = true) ->
  (forall v e, (v, e) ∈ l -> ve V' e = ve V e) -> good V l -> good V' l.
Proof.
  intros A B C [H1 H2 H3 H4 H5]. split; [done..| |].
  - intros v e H. destruct (H4 v e H). split; [by apply A|by eapply B].
  - eapply linked_mono; [|done]. intros e v w [u Hu]. unfold joined. by rewrite (C u e Hu).
Qed.

(** The vertex after [v]. *)
Lemma linked_at V l w v e : linked V l w -> (v, e) ∈ l -> exists u, joined V e v u /\ (u = w \/ exists e', (u, e') ∈ l).
Proof.
  induction l as [|[v' e'] l IH]; cbn; [by intros _ ?%elem_of_nil|]. intros [H1 H2] [E|E]%elem_of_cons.
  - injection E as -> ->. exists (start l w). split; [done|]. destruct l as [|[u e''] l]; [by left|].
    right. exists e''. apply elem_of_list_further, elem_of_list_here.
  - destruct (IH H2 E) as (u & J & [->|[e'' M]]).
    + exists w. split; [done|by left].
    + exists u. split; [done|]. right. exists e''. by apply elem_of_list_further.
Qed.

(** ** Pending edges *)
Record pend := Pend { pa : N; pb : N; pw : N; p0 : N; p1 : N }.

(** An edge from [pa] to [pb] is replaced by the edge [p0] from [pa] to [pw] and the edge [p1] from [pw] to [pb]. *)
Definition expand1 (x : pend) (v : N) : list (N * N) :=
  if decide (v = pa x) then [(v, p0 x); (pw x, p1 x)] else [(v, p1 x); (pw x, p0 x)].
Definition expand (P : gmap N pend) (p : N * N) : list (N * N) :=
  match P !! p.2 with Some x => expand1 x p.1 | None => [p] end.
Definition virt (P : gmap N pend) (l : list (N * N)) : list (N * N) := l ≫= expand P.

Lemma virt_app P l k : virt P (l ++ k) = virt P l ++ virt P k.
Proof. apply bind_app. Qed.
Lemma virt_cons P p l : virt P (p :: l) = expand P p ++ virt P l.
Proof. done. Qed.
Lemma virt_rot P l k : rot l k -> rot (virt P l) (virt P k).
Proof. intros (x & y & -> & ->). exists (virt P x), (virt P y). by rewrite !virt_app. Qed.
Lemma virt_none P l : (forall v e, (v, e) ∈ l -> P !! e = None) -> virt P l = l.
Proof.
  induction l as [|[v e] l IH]; intros H; [done|]. rewrite virt_cons. unfold expand. cbn.
  rewrite (H v e) by apply elem_of_list_here. cbn. f_equal. apply IH. intros v' e' M. eapply H. apply elem_of_list_further, M.
Qed.
Lemma virt_start P l w : start (virt P l) w = start l w.
Proof.
  destruct l as [|[v e] l]; [done|]. rewrite virt_cons, start_app. unfold expand, expand1. cbn.
  destruct (P !! e); [|done]. by case_decide.
Qed.
Lemma virt_ext P Q l : (forall v e, (v, e) ∈ l -> P !! e = Q !! e) -> virt P l = virt Q l.
Proof.
  induction l as [|[v e] l IH]; intros H; [done|]. rewrite !virt_cons. f_equal.
  - unfold expand. cbn. by rewrite (H v e) by apply elem_of_list_here.
  - apply IH. intros v' e' M. eapply H. apply elem_of_list_further, M.
Qed.

Lemma elem_virt P l v e : (v, e) ∈ virt P l <->
  (P !! e = None /\ (v, e) ∈ l) \/ exists u g x, P !! g = Some x /\ (u, g) ∈ l /\ (v, e) ∈ expand1 x u.
Proof.
  unfold virt. rewrite elem_of_list_bind. split.
  - intros ((u & g) & M & H). unfold expand in M. cbn in M. destruct (P !! g) as [x|] eqn:E.
    + right. by exists u, g, x.
    + apply elem_of_list_singleton in M. injection M as -> ->. by left.
  - intros [[E H]|(u & g & x & E & H & M)].
    + exists (v, e). split; [|done]. unfold expand. cbn. rewrite E. by apply elem_of_list_singleton.
    + exists (u, g). split; [|done]. unfold expand. cbn. by rewrite E.
Qed.

Lemma elem_expand1 x u v e : (v, e) ∈ expand1 x u <->
  (u = pa x /\ ((v = u /\ e = p0 x) \/ (v = pw x /\ e = p1 x))) \/
  (u <> pa x /\ ((v = u /\ e = p1 x) \/ (v = pw x /\ e = p0 x))).
Proof.
  unfold expand1. case_decide as E; rewrite elem_of_cons, elem_of_list_singleton; naive_solver.
Qed.

(** ** The invariant *)
Definition slot (P : gmap N pend) (V : view) (p : N * N) (x : N) : Prop :=
  (forall c l, va V D2 c = true -> vp V c = Some l -> p ∈ virt P l -> x = c) /\
  (x = UINT_MAX \/ exists l, va V D2 x = true /\ vp V x = Some l /\ p ∈ virt P l).

Definition pslot (V : view) (e v x : N) : Prop :=
  (forall c l, va V D2 c = true -> vp V c = Some l -> (v, e) ∈ l -> x = c) /\
  (x = UINT_MAX \/ (vu V x = true /\ (x < vn V D2)%N) \/ exists l w, va V D2 x = true /\ vp V x = Some l /\ (w, e) ∈ l).

Record inv (P : gmap N pend) (V : view) : Prop := {
  i_lt : forall d i, va V d i = true -> (i < vn V d)%N;
  i_small : (vn V D2 <= UINT_MAX)%N;
  i_poly : forall c, va V D2 c = true -> vu V c = false /\ exists l, vp V c = Some l /\ good V (virt P l);
  i_edge : forall e, va V D1 e = true ->
    exists a b r l, ve V e = Some (a, b) /\ vr V e = Some [r; l] /\ slot P V (b, e) r /\ slot P V (a, e) l;
  i_pend : forall e x, P !! e = Some x ->
    va V D1 e = false /\ (e < vn V D1)%N /\ ve V e = Some (pa x, pb x) /\ pa x <> pb x /\
    va V D1 (p0 x) = true /\ va V D1 (p1 x) = true /\ p0 x <> p1 x /\ va V D0 (pw x) = true /\
    ve V (p0 x) = Some (pa x, pw x) /\ ve V (p1 x) = Some (pw x, pb x) /\
    exists r l, vr V e = Some [r; l] /\ pslot V e (pb x) r /\ pslot V e (pa x) l
}.

(** The ends of the active edges are active. *)
Definition ends (V : view) : Prop := forall e a b, va V D1 e = true -> ve V e = Some (a, b) -> va V D0 a = true /\ va V D0 b = true.
