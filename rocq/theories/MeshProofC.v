(** Histories: rows and origins followed through calls (C05, C06, C10). *)
From Verif Require Import Base BaseProof CsrModel CsrSpec CsrProof MeshModel MeshSpec MeshRep MeshHist
  MeshProof MeshProof2 MeshProof3 MeshProof4 MeshProof5 MeshProof6 MeshProof7 MeshProof8 MeshProof9 MeshProofA MeshProofB.
From Coq Require Import ZifyBool ZifyNat ZifyN.

(** Effect of a call on a row that it does not write. *)
Definition carry_row (a : amesh) (o : op) (r : rel) (l : list N) : list N :=
  match o with
  | ORemove d i => renumber_row d (N.of_nat i) (N.of_nat (anum d a - 1)) r l
  | _ => l
  end.
Definition carry_orig (o : op) (d : dim) (v : N) : N :=
  match o with
  | ORemove d' i => if decide (d' = d /\ d' <> D0) then renumber (N.of_nat i) UINT_MAX v else v
  | _ => v
  end.

Lemma with_cells_lookup a d cs d' j :
  am_cells (with_cells d cs a) d' !! j = if decide (d = d') then cs !! j else am_cells a d' !! j.
Proof. cbn [with_cells am_cells]. destruct (decide (d = d')) as [<-|E]; [by rewrite upd_fun_eq|by rewrite upd_fun_ne]. Qed.

Lemma on_cell_frame d i f a a' d' j x (P : acell -> Prop) :
  on_cell d i f a = Some a' -> am_cells a d' !! j = Some x ->
  P x -> (d = d' -> i = j -> P (f x)) -> exists x', am_cells a' d' !! j = Some x' /\ P x'.
Proof.
  intros Ho Hx HP HPf. rewrite (on_cell_lookup _ _ _ _ _ _ _ Ho), Hx.
  case_decide as E; [destruct E; eexists; split; [done|by apply HPf]|eexists; split; done].
Qed.

Lemma zip_frame {A} (g : A -> acell -> acell) (l : list A) cs j x (P : acell -> Prop) :
  length l = length cs -> cs !! j = Some x -> (forall y, l !! j = Some y -> P (g y x)) ->
  exists x', zip_with g l cs !! j = Some x' /\ P x'.
Proof.
  intros Hl Hx HP. destruct (lookup_lt_is_Some_2 l j) as [y Hy]; [apply lookup_lt_Some in Hx; lia|].
  exists (g y x). split; [|by apply HP]. by rewrite lookup_zip_with, Hy, Hx.
Qed.

Lemma row_with_row_ne r r' l x : r <> r' -> ac_rel (with_row r l x) r' = ac_rel x r'.
Proof. intros Hr. cbn. by apply upd_fun_ne. Qed.

Lemma astep_frame a o a' d j j' x :
  astep a o = Some a' -> follow o d j = Some j' -> am_cells a d !! j = Some x ->
  exists x', am_cells a' d !! j' = Some x' /\
    (forall r, src r = d -> ~ writes_row o r j -> ac_rel x' r = carry_row a o r (ac_rel x r)) /\
    (~ writes_origin o d j -> ac_orig x' = carry_orig o d (ac_orig x)).
Proof.
  intros Ho Hf Hx.
  assert (Hsame : forall P : acell -> Prop,
    (exists x', am_cells a' d !! j = Some x' /\ P x') -> j' = j ->
    exists x', am_cells a' d !! j' = Some x' /\ P x') by (intros P HP ->; done).
  assert (Hfj : match o with ORemove _ _ => True | _ => j' = j end) by (destruct o; first [exact I|cbn in Hf; congruence]).
  destruct o; cbn [astep] in Ho; try (apply Hsame; [|exact Hfj]); cbn [writes_row writes_origin carry_row carry_orig].
  - injection Ho as <-. exists x. done.
  - injection Ho as <-. rewrite with_cells_lookup. case_decide as E; [|by exists x]. subst d0.
    exists x. rewrite lookup_app_l by (by eapply lookup_lt_Some). done.
  - injection Ho as <-. rewrite with_cells_lookup. case_decide as E; [|by exists x]. subst d0.
    exists x. rewrite lookup_app_l by (by eapply lookup_lt_Some). done.
  - case_decide as Hi; [|done]. injection Ho as <-. cbn [follow] in Hf.
    assert (Hmv : j' = moved d0 i d j /\ (d <> d0 \/ j <> i)).
    { unfold moved. destruct (decide (d0 = d)) as [<-|E].
      - rewrite decide_True by done. destruct (decide (j = i)); [done|]. injection Hf as <-. tauto.
      - rewrite decide_False by done. injection Hf as <-. split; [done|]. by left. }
    destruct Hmv as [-> Hne]. rewrite aremove_lookup, Hx by done. eexists. split; [done|]. split; [done|].
    intros _. cbn [renumber_cell ac_orig]. done.
  - eapply on_cell_frame; [exact Ho|exact Hx|done|done].
  - case_decide as E; [|done]. injection Ho as <-. rewrite with_cells_lookup. case_decide as E2; [|by exists x].
    subst d. apply zip_frame with x; [done..|]. done.
  - eapply on_cell_frame; [exact Ho|exact Hx|done|done].
  - case_decide as E; [|done]. destruct E as [E _]. injection Ho as <-. rewrite with_cells_lookup.
    case_decide as E2; [|by exists x]. subst d. apply zip_frame with x; [done..|]. done.
  - eapply on_cell_frame; [exact Ho|exact Hx|done|done].
  - eapply on_cell_frame; [exact Ho|exact Hx|done|done].
  - case_decide as E; [|done]. apply bind_Some in Ho as (a1 & Ho1 & Ho2).
    destruct (on_cell_frame _ _ _ _ _ d j x (fun y => (forall r, ac_rel y r = ac_rel x r) /\ ac_orig y = ac_orig x) Ho1 Hx)
      as (x1 & Hx1 & Hr1 & Ho1'); [done|done|].
    eapply on_cell_frame; [exact Ho2|exact Hx1| |].
    + split; [intros; by rewrite Hr1|]. intros _. by rewrite Ho1'.
    + intros -> ->. split.
      * intros r _ _. case_decide; cbn; by rewrite Hr1.
      * intros Hn. exfalso. apply Hn. done.
  - case_decide as E; [|done]. injection Ho as <-. rewrite with_cells_lookup. case_decide as E2; [|by exists x].
    subst d. apply zip_frame with x; [by rewrite redeal_length|done|]. intros y _. split; [|done].
    intros r' _ Hw. by apply row_with_row_ne.
  - injection Ho as <-. rewrite with_cells_lookup. case_decide as E2; [|by exists x].
    subst d. apply zip_frame with x; [by rewrite redeal_length, replicate_length|done|]. intros y _. split; [|done].
    intros r' _ Hw. by apply row_with_row_ne.
  - case_decide as E; [|done]. eapply on_cell_frame; [exact Ho|exact Hx|done|]. intros <- <-. split; [|done].
    intros r' _ Hw. apply row_with_row_ne. tauto.
  - apply bind_Some in Ho as (y & Hy & Ho). case_decide as E; [|done].
    eapply on_cell_frame; [exact Ho|exact Hx|done|]. intros <- <-. split; [|done].
    intros r' _ Hw. apply row_with_row_ne. tauto.
  - case_decide as E0; [injection Ho as <-; by exists x|].
    apply bind_Some in Ho as (y & Hy & Ho). case_decide as E; [|done].
    eapply on_cell_frame; [exact Ho|exact Hx|done|]. intros <- <-. split; [|done].
    intros r' _ Hw. apply row_with_row_ne. tauto.
  - case_decide as E; [|done]. eapply on_cell_frame; [exact Ho|exact Hx|done|]. intros <- <-. split; [|done].
    intros r' _ Hw. apply row_with_row_ne. tauto.
  - case_decide as E; [|done]. eapply on_cell_frame; [exact Ho|exact Hx|done|]. intros <- <-. split; [|done].
    intros r' _ Hw. rewrite !row_with_row_ne; [done|..]; intros <-; tauto.
  - eapply on_cell_frame; [exact Ho|exact Hx|done|]. intros <- <-. split; [|done].
    intros r' _ Hw. apply row_with_row_ne. tauto.
  - case_decide as E; [done|]. injection Ho as <-. cbn [am_cells].
    destruct (decide (d0 = d)) as [<-|E2].
    + rewrite upd_fun_eq, list_lookup_fmap, Hx. by eexists.
    + rewrite upd_fun_ne by done. by exists x.
  - case_decide as E; [|done]. injection Ho as <-. rewrite with_cells_lookup. case_decide as E2; [|by exists x].
    subst d0. apply zip_frame with x; [rewrite redeal_length; by apply E|done|]. done.
  - case_decide as E; [|done]. eapply on_cell_frame; [exact Ho|exact Hx|done|done].
  - case_decide as E; [|done]. eapply on_cell_frame; [exact Ho|exact Hx|done|done].
  - injection Ho as <-. exists x. done.
Qed.

(** Number of cells after a call. *)
Lemma astep_num a o a' d m :
  represents m a -> astep a o = Some a' ->
  anum d a' = (match o with ORemove d' _ => if decide (d' = d) then anum d a - 1 else anum d a
                          | _ => anum d a + created1 d m o end) /\
  match o with ORemove d' i => d' = d -> i < anum d a | _ => True end.
Proof.
  intros H Ho.
  assert (Hwc : forall d' cs, anum d (with_cells d' cs a) = if decide (d' = d) then length cs else anum d a).
  { intros d' cs. unfold anum. cbn [with_cells am_cells]. destruct (decide (d' = d)) as [<-|E]; [by rewrite upd_fun_eq|by rewrite upd_fun_ne]. }
  destruct o; cbn [astep] in Ho; cbn [created1]; rewrite ?Nat.add_0_r;
    repeat match goal with
    | H : context [decide ?P] |- _ => lazymatch type of H with (if decide P then _ else _) = Some _ => destruct (decide P) as [?E|?E]; [|done] end
    end.
  all: try (split; [|done]).
  all: try (by eapply on_cell_num).
  all: try (injection Ho as <-; rewrite Hwc; case_decide; [|done]; subst; rewrite zip_with_length_r_eq; [done|]; rewrite ?redeal_length, ?replicate_length; unfold anum in *; intuition congruence).
  - by injection Ho as <-.
  - injection Ho as <-. rewrite Hwc. case_decide; [|lia]. subst. rewrite app_length, replicate_length. fold (anum d a).
    rewrite (g_num _ _ H). done.
  - injection Ho as <-. rewrite Hwc. case_decide; [|lia]. subst. rewrite app_length, replicate_length. done.
  - injection Ho as <-. rewrite aremove_num by done. split; [|by intros <-].
    destruct (decide (d0 = d)) as [->|E2]; [by rewrite decide_True|by rewrite decide_False].
  - apply bind_Some in Ho as (a1 & Ho1 & Ho2). rewrite (on_cell_num _ _ _ _ _ _ Ho2). by eapply on_cell_num.
  - apply bind_Some in Ho as (x & Hx & Ho). case_decide; [|done]. by eapply on_cell_num.
  - destruct (decide (vs = [])); [by injection Ho as <-|].
    apply bind_Some in Ho as (x & Hx & Ho). case_decide; [|done]. by eapply on_cell_num.
  - destruct (decide (id ∈ am_names a d0)); [done|]. injection Ho as <-. unfold anum. cbn [am_cells].
    destruct (decide (d0 = d)) as [<-|E2]; [by rewrite upd_fun_eq, fmap_length|by rewrite upd_fun_ne].
  - by injection Ho as <-.
Qed.
