(** Reading back after one editing call, stated on the queries (C01, C11, C12). *)
From Verif Require Import Base BaseProof CsrModel CsrSpec CsrProof MeshModel MeshSpec MeshRep MeshHist
  MeshProof MeshProof2 MeshProof3 MeshProof4 MeshProof5 MeshProof6 MeshProof7 MeshProof8 MeshProof9.
From Coq Require Import ZifyBool ZifyNat ZifyN.

Lemma look_on_cell {B} d i f a a' d' j (g : acell -> B) :
  on_cell d i f a = Some a' ->
  look a' d' j g = if decide (d = d' /\ i = j) then look a d' j (g ∘ f) else look a d' j g.
Proof.
  unfold on_cell. intros (x & Hx & [= <-])%bind_Some. unfold look. cbn [with_cells am_cells].
  destruct (decide (d = d')) as [<-|E].
  - rewrite upd_fun_eq. destruct (decide (i = j)) as [<-|E2].
    + rewrite decide_True by done. rewrite list_lookup_insert by (by eapply lookup_lt_Some). by rewrite Hx.
    + rewrite decide_False by tauto. by rewrite list_lookup_insert_ne.
  - rewrite decide_False by tauto. by rewrite upd_fun_ne.
Qed.

Lemma on_cell_num d i f a a' d' : on_cell d i f a = Some a' -> anum d' a' = anum d' a.
Proof.
  unfold on_cell. intros (x & Hx & [= <-])%bind_Some. unfold anum. cbn [with_cells am_cells].
  destruct (decide (d = d')) as [<-|E]; [by rewrite upd_fun_eq, insert_length|by rewrite upd_fun_ne].
Qed.

Lemma look_ext {B} a d i (f g : acell -> B) : (forall x, f x = g x) -> look a d i f = look a d i g.
Proof. intros E. unfold look. destruct (am_cells a d !! i); [by rewrite E|done]. Qed.

Lemma row_with_row r l x r' : row_of r' (with_row r l x) = if decide (r = r') then l else row_of r' x.
Proof. unfold row_of, with_row, upd_fun. cbn. done. Qed.

Lemma same_values_on_cell m m' a a' r i f :
  represents m a -> represents m' a' -> on_cell (src r) i f a = Some a' ->
  (forall x, ac_geo (f x) = ac_geo x /\ ac_mark (f x) = ac_mark x /\ ac_act (f x) = ac_act x /\
             ac_orig (f x) = ac_orig x /\ ac_upd (f x) = ac_upd x) ->
  same_values m m'.
Proof.
  intros H H' Ho Hf.
  assert (Hl : forall B d j (g : acell -> B), (forall x, g (f x) = g x) -> look a' d j g = look a d j g).
  { intros B d j g Hg. rewrite (look_on_cell _ _ _ _ _ _ _ _ Ho). case_decide; [|done].
    apply look_ext. intros x. apply Hg. }
  split_and!.
  - intros d. rewrite (g_num m a H), (g_num m' a' H'). by eapply on_cell_num.
  - intros j. rewrite (g_coord m a H), (g_coord m' a' H'). apply Hl. intros x. unfold geo_triple.
    by destruct (Hf x) as (-> & _).
  - intros e. rewrite (g_origin m a H), (g_origin m' a' H'), (g_end m a H), (g_end m' a' H').
    split; apply Hl; intros x; unfold geo_pair; by destruct (Hf x) as (-> & _).
  - intros d j. rewrite (g_marker m a H), (g_marker m' a' H'), (g_active m a H), (g_active m' a' H').
    split; apply Hl; intros x; apply Hf.
  - intros d j. rewrite (g_hasupdateds m a H), (g_hasupdateds m' a' H'). apply Hl.
    intros x. by destruct (Hf x) as (_ & _ & _ & _ & ->).
  - intros d j Hd. rewrite (g_original m a H), (g_original m' a' H') by done. apply Hl. intros x. apply Hf.
Qed.

Definition propsizes (a : amesh) (d : dim) (i p : nat) : outcome N :=
  match am_cells a d !! i with
  | Some x => if decide (p < length (am_names a d)) then Ok (N.of_nat (length (prop_of p x))) else Abort
  | None => Abort
  end.

Lemma on_cell_names d i f a a' : on_cell d i f a = Some a' -> am_names a' = am_names a.
Proof. unfold on_cell. by intros (x & Hx & [= <-])%bind_Some. Qed.

Lemma on_cell_lookup d i f a a' d' j :
  on_cell d i f a = Some a' ->
  am_cells a' d' !! j = (if decide (d = d' /\ i = j) then f <$> am_cells a d' !! j else am_cells a d' !! j).
Proof.
  unfold on_cell. intros (x & Hx & [= <-])%bind_Some. cbn [with_cells am_cells].
  destruct (decide (d = d')) as [<-|E].
  - rewrite upd_fun_eq. destruct (decide (i = j)) as [<-|E2].
    + rewrite decide_True by done. rewrite list_lookup_insert by (by eapply lookup_lt_Some). by rewrite Hx.
    + rewrite decide_False by tauto. by rewrite list_lookup_insert_ne.
  - rewrite decide_False by tauto. by rewrite upd_fun_ne.
Qed.

Lemma same_props_on_cell m m' a a' d i f :
  represents m a -> represents m' a' -> on_cell d i f a = Some a' ->
  (forall x, ac_prop (f x) = ac_prop x) -> same_props m m'.
Proof.
  intros H H' Ho Hf d' j p.
  rewrite (g_propsize m a H), (g_propsize m' a' H'), (on_cell_names _ _ _ _ _ Ho).
  rewrite (on_cell_lookup _ _ _ _ _ d' j Ho).
  assert (Hp : forall x, prop_of p (f x) = prop_of p x) by (intros x; unfold prop_of; by rewrite Hf).
  split.
  - destruct (decide (d = d' /\ i = j)); [|done]. destruct (am_cells a d' !! j); cbn; [|done]. by rewrite Hp.
  - intros k. rewrite (g_propvalue m a H), (g_propvalue m' a' H'), (on_cell_names _ _ _ _ _ Ho).
    rewrite (on_cell_lookup _ _ _ _ _ d' j Ho).
    destruct (decide (d = d' /\ i = j)); [|done]. destruct (am_cells a d' !! j); cbn; [|done]. by rewrite Hp.
Qed.

Lemma row_change m m' a a' r i g :
  represents m a -> represents m' a' ->
  on_cell (src r) i (fun x => with_row r (g (ac_rel x r)) x) a = Some a' ->
  (exists old, RelRow r i m = Ok old /\ RelRow r i m' = Ok (g old)) /\
  same_rows_but r i m m' /\ same_values m m' /\ same_props m m'.
Proof.
  intros H H' Ho. split_and!.
  - rewrite (g_row m a H), (g_row m' a' H'), (look_on_cell _ _ _ _ _ _ _ _ Ho), decide_True by done.
    unfold on_cell in Ho. apply bind_Some in Ho as (x & Hx & _). unfold look. rewrite Hx.
    exists (row_of r x). split; [done|]. unfold compose. rewrite row_with_row, decide_True by done. done.
  - intros r' j Hne. rewrite (g_row m a H), (g_row m' a' H'), (look_on_cell _ _ _ _ _ _ _ _ Ho).
    case_decide as E; [|done]. destruct E as [Es <-]. apply look_ext. intros x. unfold compose.
    rewrite row_with_row, decide_False; [done|]. intros ->. done.
  - eapply same_values_on_cell; [exact H|exact H'|exact Ho|]. done.
  - eapply same_props_on_cell; [exact H|exact H'|exact Ho|]. done.
Qed.

Lemma init_one_ok m r i n m' :
  reachable m -> RelInitOne r i n m = Ok m' ->
  (exists old, RelRow r i m = Ok old /\
     RelRow r i m' = Ok (take n old ++ replicate (n - length old) (default_single r))) /\
  same_rows_but r i m m' /\ same_values m m' /\ same_props m m'.
Proof.
  intros Hm Hs. destruct (reachable_step m (OInitOne r i n) m' Hm I Hs) as (a & a' & H & H' & Ho).
  cbn [astep] in Ho. case_decide; [|done].
  pose proof (row_change m m' a a' r i (resize n (default_single r)) H H' Ho) as Hc.
  destruct Hc as [(old & E & E') Hc]. split; [|done]. exists old. split; [done|].
  by rewrite E', resize_spec.
Qed.

Lemma insert_ok m r i k v m' :
  reachable m -> RelInsert r i k v m = Ok m' ->
  (exists old, RelRow r i m = Ok old /\ k < length old /\ (v < N.of_nat (num (tgt r) m))%N /\
     RelRow r i m' = Ok (<[k := v]> old)) /\
  same_rows_but r i m m' /\ same_values m m' /\ same_props m m'.
Proof.
  intros Hm Hs. destruct (reachable_step m (OInsert r i k v) m' Hm I Hs) as (a & a' & H & H' & Ho).
  cbn [astep] in Ho. apply bind_Some in Ho as (x & Hx & Ho).
  destruct (decide (k < length (ac_rel x r) /\ (v < N.of_nat (anum (tgt r) a))%N)) as [[Hk Hv]|]; [|done].
  pose proof (row_change m m' a a' r i (fun l => <[k:=v]> l) H H' Ho) as Hc.
  destruct Hc as [(old & E & E') Hc]. split; [|done]. exists old. split; [done|].
  rewrite (g_row m a H) in E. unfold look in E. rewrite Hx in E. injection E as <-.
  rewrite (g_num m a H). done.
Qed.

Lemma add_ok m r i vs m' :
  reachable m -> RelAdd r i vs m = Ok m' ->
  (RelRow r i m' = Ok vs /\ Forall (fun v => (v < N.of_nat (num (tgt r) m))%N) vs) /\
  same_rows_but r i m m' /\ same_values m m' /\ same_props m m'.
Proof.
  intros Hm Hs. destruct (reachable_step m (OAdd r i vs) m' Hm I Hs) as (a & a' & H & H' & Ho).
  cbn [astep] in Ho.
  destruct (decide ((r = S2 -> length vs mod 3 = 0) /\ all_below (anum (tgt r) a) vs)) as [[_ Hb]|]; [|done].
  destruct (row_change m m' a a' r i (fun _ => vs) H H' Ho) as [(old & E & E') Hc].
  rewrite (g_num m a H). done.
Qed.

Lemma reset_ok m r i k m' :
  reachable m -> allowed m (OReset r i k) -> RelReset r i k m = Ok m' ->
  (exists old, RelRow r i m = Ok old /\ RelRow r i m' = Ok (<[k := UINT_MAX]> old)) /\
  same_rows_but r i m m' /\ same_values m m' /\ same_props m m'.
Proof.
  intros Hm Ha Hs. destruct (reachable_step m (OReset r i k) m' Hm Ha Hs) as (a & a' & H & H' & Ho).
  cbn [astep] in Ho. exact (row_change m m' a a' r i (fun l => <[k:=UINT_MAX]> l) H H' Ho).
Qed.

(** Bulk initialisation of an attribute no cell has yet. *)
Lemma redeal_empty {A} (d : A) cnt (rows : list (list A)) :
  Forall (fun l => l = []) rows -> redeal d cnt rows = (fun n => replicate n d) <$> cnt.
Proof.
  intros Hr. unfold redeal. rewrite (all_nil_replicate rows Hr), concat_replicate_nil, resize_nil.
  induction cnt as [|n cnt IH]; cbn; [done|].
  change (sum_list (n :: cnt)) with (n + sum_list cnt). rewrite take_replicate, drop_replicate.
  f_equal; [f_equal; lia|]. rewrite <- IH. f_equal. f_equal. lia.
Qed.

Lemma look_with_cells {B} a d cs d' i (g : acell -> B) :
  look (with_cells d cs a) d' i g =
  if decide (d = d') then match cs !! i with Some x => Ok (g x) | None => Abort end else look a d' i g.
Proof.
  unfold look. cbn [with_cells am_cells]. destruct (decide (d = d')) as [<-|E]; [by rewrite upd_fun_eq|].
  by rewrite upd_fun_ne.
Qed.

Lemma lookup_zip_with_row r rows cs i :
  length rows = length cs ->
  zip_with (with_row r) rows cs !! i =
  (x ← cs !! i; l ← rows !! i; Some (with_row r l x)).
Proof.
  intros Hl. rewrite lookup_zip_with. destruct (rows !! i) as [l|] eqn:E1, (cs !! i) as [x|] eqn:E2; cbn; try done.
Qed.

Lemma init_all_ok m r cnt m' :
  reachable m -> (forall i, i < num (src r) m -> RelNumber r i m = Ok 0%N) ->
  RelInitAll r cnt m = Ok m' ->
  length cnt = num (src r) m /\
  (forall i n, cnt !! i = Some n -> RelRow r i m' = Ok (replicate n (default_bulk r))) /\
  (forall r' j, r' <> r -> RelRow r' j m' = RelRow r' j m).
Proof.
  intros Hm Hz Hs. destruct (reachable_step m (OInitAll r cnt) m' Hm I Hs) as (a & a' & H & H' & Ho).
  cbn [astep] in Ho. destruct (decide (length cnt = anum (src r) a)) as [Hl|]; [|done]. injection Ho as <-.
  assert (Hnil : Forall (fun l => l = []) (row_of r <$> am_cells a (src r))).
  { apply Forall_fmap, Forall_forall. intros x [i Hi]%elem_of_list_lookup.
    specialize (Hz i). rewrite (g_num m a H), (g_count m a H) in Hz. unfold look in Hz. rewrite Hi in Hz.
    specialize (Hz (lookup_lt_Some _ _ _ Hi)). injection Hz as Hz. cbn. destruct (row_of r x); [done|cbn in Hz; lia]. }
  rewrite redeal_empty in H' by done. split_and!.
  - by rewrite (g_num m a H).
  - intros i n Hn. rewrite (g_row _ _ H'), look_with_cells, decide_True by done.
    rewrite lookup_zip_with_row by (by rewrite fmap_length).
    destruct (lookup_lt_is_Some_2 (am_cells a (src r)) i) as [x Hx].
    { apply lookup_lt_Some in Hn. unfold anum in Hl. lia. }
    rewrite Hx. cbn [mbind option_bind]. rewrite list_lookup_fmap, Hn. cbn [mbind option_bind fmap option_fmap option_map]. by rewrite row_with_row, decide_True.
  - intros r' j Hne. rewrite (g_row _ _ H'), (g_row m a H), look_with_cells.
    destruct (decide (src r = src r')) as [E|E]; [|done]. rewrite E.
    rewrite lookup_zip_with_row by (rewrite fmap_length, <- E; done). unfold look.
    destruct (am_cells a (src r') !! j) as [x|] eqn:Hx; [cbn [mbind option_bind]|done].
    destruct (lookup_lt_is_Some_2 cnt j) as [n Hn].
    { apply lookup_lt_Some in Hx. unfold anum in Hl. rewrite E in Hl. lia. }
    rewrite list_lookup_fmap, Hn. cbn [mbind option_bind fmap option_fmap option_map]. by rewrite row_with_row, decide_False by done.
Qed.

(** Appending. *)
Lemma lookup_app_new {A} (l : list A) n x i :
  (l ++ replicate n x) !! i = if decide (i < length l) then l !! i else if decide (i < length l + n) then Some x else None.
Proof.
  destruct (decide (i < length l)); [by apply lookup_app_l|]. rewrite lookup_app_r by lia.
  destruct (decide (i < length l + n)); [by apply lookup_replicate_2; lia|]. apply lookup_ge_None_2.
  rewrite replicate_length. lia.
Qed.

Lemma append_ok m d n m' first :
  reachable m -> CellAppend d n m = Ok (m', first) ->
  first = num d m /\ num d m' = num d m + n /\
  (forall d', d' <> d -> num d' m' = num d' m) /\
  (forall r i, src r <> d \/ i < num d m -> RelRow r i m' = RelRow r i m) /\
  (forall r i, src r = d -> num d m <= i < num d m + n -> RelRow r i m' = Ok []) /\
  (forall i, num d m <= i < num d m + n -> Marker d i m' = Ok 0%N /\ IsActive d i m' = Ok false) /\
  (forall d' i, d' <> d \/ i < num d m -> Marker d' i m' = Marker d' i m /\ IsActive d' i m' = IsActive d' i m).
Proof.
  intros Hm Hs. destruct (reachable_step m (OAppend d n) m' Hm I) as (a & a' & H & H' & Ho).
  { cbn. rewrite Hs. done. }
  destruct (sim_Append m a d n H) as [_ [m2 E2]]. rewrite E2 in Hs. injection Hs as -> <-.
  cbn [astep] in Ho. injection Ho as <-. rewrite (g_num m a H).
  assert (Hlook : forall B d' i (g : acell -> B), d' <> d \/ i < anum d a ->
    look (with_cells d (am_cells a d ++ replicate n (new_cell d (length (am_names a d)))) a) d' i g = look a d' i g).
  { intros B d' i g Hi. rewrite look_with_cells. destruct (decide (d = d')) as [<-|]; [|done].
    rewrite lookup_app_new, decide_True; [done|]. destruct Hi; [done|]. done. }
  assert (Hnew : forall B i (g : acell -> B), anum d a <= i < anum d a + n ->
    look (with_cells d (am_cells a d ++ replicate n (new_cell d (length (am_names a d)))) a) d i g =
    Ok (g (new_cell d (length (am_names a d))))).
  { intros B i g Hi. rewrite look_with_cells, decide_True by done. unfold anum in Hi.
    rewrite lookup_app_new, decide_False by lia. rewrite decide_True by lia. done. }
  split_and!.
  - done.
  - rewrite (g_num _ _ H'). unfold anum. cbn [with_cells am_cells]. rewrite upd_fun_eq, app_length, replicate_length. done.
  - intros d' Hd. rewrite (g_num _ _ H'), (g_num m a H). unfold anum. cbn [with_cells am_cells]. by rewrite upd_fun_ne.
  - intros r i Hi. rewrite (g_row _ _ H'), (g_row m a H). by apply Hlook.
  - intros r i Hsrc Hi. rewrite (g_row _ _ H'), Hsrc. by apply Hnew.
  - intros i Hi. rewrite (g_marker _ _ H'), (g_active _ _ H'). rewrite !Hnew by done. done.
  - intros d' i Hi. rewrite (g_marker _ _ H'), (g_active _ _ H'), (g_marker _ _ H), (g_active _ _ H).
    rewrite !Hlook by done. done.
Qed.

(** Growing in place while nothing is stored yet. *)
Lemma initialize_ok m d n :
  reachable m -> allowed m (OInitialize d n) ->
  let m' := CellsInitialize d n m in
  num d m' = n /\
  (forall r i, src r <> d \/ i < num d m -> RelRow r i m' = RelRow r i m) /\
  (forall r i, src r = d -> num d m <= i < n -> RelRow r i m' = Ok []) /\
  (forall d' i, d' <> d \/ i < num d m -> Marker d' i m' = Marker d' i m /\ IsActive d' i m' = IsActive d' i m).
Proof.
  intros Hm Ha. destruct (reachable_step m (OInitialize d n) _ Hm Ha eq_refl) as (a & a' & H & H' & Ho).
  pose proof (allowed_pre m a _ H Ha) as Hpre. cbn in Hpre.
  assert (Hle : anum d a <= n) by (destruct Hpre as [->|[? _]]; done).
  cbn [astep] in Ho. injection Ho as <-. cbn zeta. rewrite (g_num m a H).
  split_and!.
  - rewrite (g_num _ _ H'). unfold anum in *. cbn [with_cells am_cells].
    rewrite upd_fun_eq, app_length, replicate_length. lia.
  - intros r i Hi. rewrite (g_row _ _ H'), (g_row m a H), look_with_cells.
    destruct (decide (d = src r)) as [->|]; [|done]. unfold anum in Hi.
    rewrite lookup_app_new, decide_True; [done|]. destruct Hi; done.
  - intros r i Hsrc Hi. rewrite (g_row _ _ H'), Hsrc, look_with_cells, decide_True by done. unfold anum in Hi.
    rewrite lookup_app_new, decide_False by lia. rewrite decide_True by (unfold anum; lia). done.
  - intros d' i Hi. rewrite (g_marker _ _ H'), (g_active _ _ H'), (g_marker _ _ H), (g_active _ _ H), !look_with_cells.
    destruct (decide (d = d')) as [<-|]; [|done]. unfold anum in Hi.
    rewrite lookup_app_new, decide_True; [done|]. destruct Hi; done.
Qed.

(** Double properties. *)
Lemma prop_change m m' a a' d i p g :
  represents m a -> represents m' a' -> p < length (am_names a d) ->
  on_cell d i (fun x => with_props (<[p := g (prop_of p x)]> (ac_prop x)) x) a = Some a' ->
  (exists x, am_cells a d !! i = Some x /\
     PropSize d i p m = Ok (N.of_nat (length (prop_of p x))) /\
     PropSize d i p m' = Ok (N.of_nat (length (g (prop_of p x)))) /\
     (forall k v, prop_of p x !! k = Some v -> PropValue d i p k m = Ok v) /\
     (forall k v, g (prop_of p x) !! k = Some v -> PropValue d i p k m' = Ok v)) /\
  (forall d' j q k, (d', j, q) <> (d, i, p) ->
     PropSize d' j q m' = PropSize d' j q m /\ PropValue d' j q k m' = PropValue d' j q k m) /\
  same_values m m' /\ (forall r j, RelRow r j m' = RelRow r j m).
Proof.
  intros H H' Hp Ho.
  assert (Hx : exists x, am_cells a d !! i = Some x).
  { unfold on_cell in Ho. apply bind_Some in Ho as (x & Hx & _). eauto. }
  destruct Hx as [x Hx].
  pose proof (on_cell_lookup _ _ _ _ _ d i Ho) as Hx'. rewrite decide_True, Hx in Hx' by done. cbn in Hx'.
  pose proof (prop_row_len m a d i x H Hx) as Hlen.
  assert (Hnew : prop_of p (with_props (<[p := g (prop_of p x)]> (ac_prop x)) x) = g (prop_of p x)).
  { unfold prop_of at 1. cbn. by rewrite list_lookup_insert by lia. }
  split_and!.
  - exists x. rewrite (g_propsize m a H), (g_propsize m' a' H'), Hx, Hx', (on_cell_names _ _ _ _ _ Ho).
    rewrite !decide_True by done. rewrite Hnew. split_and!; try done.
    + intros k v Hv. rewrite (g_propvalue m a H), Hx, decide_True by done. by rewrite Hv.
    + intros k v Hv. rewrite (g_propvalue m' a' H'), Hx', (on_cell_names _ _ _ _ _ Ho), decide_True by done.
      by rewrite Hnew, Hv.
  - intros d' j q k Hne.
    rewrite (g_propsize m a H), (g_propsize m' a' H'), (g_propvalue m a H), (g_propvalue m' a' H'),
      (on_cell_names _ _ _ _ _ Ho), (on_cell_lookup _ _ _ _ _ d' j Ho).
    destruct (decide (d = d' /\ i = j)) as [[<- <-]|]; [|done]. rewrite Hx. cbn.
    assert (Hq : prop_of q (with_props (<[p := g (prop_of p x)]> (ac_prop x)) x) = prop_of q x).
    { unfold prop_of at 1. cbn. rewrite list_lookup_insert_ne; [done|]. congruence. }
    by rewrite Hq.
  - assert (Hl : forall B d' j (f : acell -> B), (forall x ps, f (with_props ps x) = f x) -> look a' d' j f = look a d' j f).
    { intros B d' j f Hf. rewrite (look_on_cell _ _ _ _ _ _ _ _ Ho). case_decide; [|done].
      apply look_ext. intros y. cbn. by rewrite Hf. }
    split_and!.
    + intros d'. rewrite (g_num m a H), (g_num m' a' H'). by eapply on_cell_num.
    + intros j. rewrite (g_coord m a H), (g_coord m' a' H'). by apply Hl.
    + intros e. rewrite (g_origin m a H), (g_origin m' a' H'), (g_end m a H), (g_end m' a' H').
      split; by apply Hl.
    + intros d' j. rewrite (g_marker m a H), (g_marker m' a' H'), (g_active m a H), (g_active m' a' H').
      split; by apply Hl.
    + intros d' j. rewrite (g_hasupdateds m a H), (g_hasupdateds m' a' H'). by apply Hl.
    + intros d' j Hd. rewrite (g_original m a H), (g_original m' a' H') by done. by apply Hl.
  - intros r j. rewrite (g_row m a H), (g_row m' a' H'), (look_on_cell _ _ _ _ _ _ _ _ Ho).
    case_decide; [|done]. by apply look_ext.
Qed.
