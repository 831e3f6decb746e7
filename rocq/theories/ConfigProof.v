(** The store refines the map. *)
From Verif Require Import BaseProof StringsModel StringsSpec StringsProof StringsProof2 ConfigModel ConfigSpec.
Local Open Scope nat_scope.

Definition supported (m : config) : Prop := forall id v d, m !! id = Some (v, d) -> type_of v <> Unknown.

Lemma types_lookup m id : propertyTypes (store_of m) !! id = (fun e => type_of e.1) <$> m !! id.
Proof. apply lookup_fmap. Qed.
Lemma props_lookup m id : properties (store_of m) !! id = (fun e => Some (Property e.1 e.2)) <$> m !! id.
Proof. apply lookup_fmap. Qed.

Lemma exists_store m id : ExistsProperty (store_of m) id = bool_decide (is_Some (m !! id)).
Proof. unfold ExistsProperty. apply bool_decide_ext. rewrite types_lookup. by rewrite fmap_is_Some. Qed.

Lemma number_add_1 n : number_add (N.of_nat n `mod` 4294967296) 1 = (N.of_nat (S n) `mod` 4294967296)%N.
Proof. unfold number_add. rewrite N.add_mod_idemp_l by done. f_equal. lia. Qed.
Lemma number_sub_1 n : number_add (N.of_nat (S n) `mod` 4294967296) 4294967295 = (N.of_nat n `mod` 4294967296)%N.
Proof.
  unfold number_add. rewrite N.add_mod_idemp_l by done. replace (N.of_nat (S n) + 4294967295)%N with (N.of_nat n + 1 * 4294967296)%N by lia.
  by rewrite N.mod_add.
Qed.

Lemma remove_store m id : supported m -> RemoveProperty id (store_of m) = (Ok tt, store_of (delete id m)).
Proof.
  intros Hm. unfold RemoveProperty, look. rewrite exists_store. case_bool_decide as Hx.
  - destruct Hx as [[v d] E]. unfold mbind, call_bind, GetPropertyType. rewrite types_lookup, E. cbn [fmap option_fmap option_map fst].
    unfold RemoveTyped. rewrite decide_False by (by eapply Hm). rewrite props_lookup, E. cbn [fmap option_fmap option_map fst snd pvalue].
    rewrite decide_True by done. unfold modify. cbn [propertyTypes properties numberProperties].
    f_equal. unfold store_of. cbn [propertyTypes properties numberProperties].
    rewrite (map_size_delete_Some id m) by eauto. assert (Hs : size m = S (pred (size m))).
    { assert (size m <> 0); [|lia]. intros E0. apply map_size_empty_inv in E0. subst m. by rewrite lookup_empty in E. }
    rewrite Hs at 1. rewrite number_sub_1. by rewrite !fmap_delete.
  - rewrite delete_notin; [done|]. destruct (m !! id) eqn:E; [|done]. destruct Hx. eauto.
Qed.

Lemma supported_delete m id : supported m -> supported (delete id m).
Proof. intros Hm id' v d E. apply lookup_delete_Some in E as [_ E]. by eapply Hm. Qed.
Lemma supported_insert m id v d : supported m -> type_of v <> Unknown -> supported (<[id := (v, d)]> m).
Proof. intros Hm Hv id' w d' E. apply lookup_insert_Some in E as [[_ [= <- <-]]|[_ E]]; [done|by eapply Hm]. Qed.

Lemma add_raw m id t p v d : m !! id = None -> type_of v = t -> type_of p = t ->
  (modify (fun s => Store (number_add (numberProperties s) 1) (map_insert id t (propertyTypes s))
                     (map_insert id (Some (Property p [])) (properties s)));;
   GetProperty id t;; put_property id (Property v d)) (store_of m) = (Ok tt, store_of (<[id := (v, d)]> m)).
Proof.
  intros E Hv Hp. unfold mbind, call_bind, modify. cbn [propertyTypes properties numberProperties].
  unfold map_insert. rewrite types_lookup, props_lookup, E. cbn [fmap option_fmap option_map].
  unfold GetProperty. cbn [properties]. rewrite lookup_insert. cbn [pvalue]. rewrite decide_True by done.
  unfold put_property. cbn [propertyTypes properties numberProperties]. f_equal. unfold store_of. cbn [propertyTypes properties numberProperties].
  rewrite number_add_1, map_size_insert_None by done. rewrite !fmap_insert, insert_insert. cbn [fst snd]. by rewrite Hv.
Qed.

Lemma default_type t : type_of (default_value t) = t.
Proof. by destruct t. Qed.

Lemma add_store m id v d : supported m -> type_of v <> Unknown -> AddProperty id v d (store_of m) = (Ok tt, store_of (<[id := (v, d)]> m)).
Proof.
  intros Hm Hv. unfold AddProperty. rewrite decide_False by done.
  assert (Hr := remove_store m id Hm). unfold mbind at 1, call_bind at 1. rewrite Hr.
  rewrite <- (insert_delete_insert m id (v, d)). apply add_raw; [apply lookup_delete|done|apply default_type].
Qed.
Lemma add_cstring_store m id t d : supported m -> AddCString id t d (store_of m) = (Ok tt, store_of (<[id := (VString t, d)]> m)).
Proof.
  intros Hm. unfold AddCString.
  assert (Hr := remove_store m id Hm). unfold mbind at 1, call_bind at 1. rewrite Hr.
  rewrite <- (insert_delete_insert m id (VString t, d)). apply add_raw; [apply lookup_delete|done|done].
Qed.

Lemma get_property_store m id v d : m !! id = Some (v, d) -> GetProperty id (type_of v) (store_of m) = (Ok (Property v d), store_of m).
Proof. intros E. unfold GetProperty. rewrite props_lookup, E. cbn [fmap option_fmap option_map fst snd pvalue]. by rewrite decide_True. Qed.

Lemma put_store m id v d w e : m !! id = Some (v, d) -> type_of w = type_of v ->
  put_property id (Property w e) (store_of m) = (Ok tt, store_of (<[id := (w, e)]> m)).
Proof.
  intros E Hw. unfold put_property, store_of. cbn [propertyTypes properties numberProperties]. f_equal.
  rewrite map_size_insert_Some by eauto. rewrite !fmap_insert. cbn [fst snd]. f_equal.
  rewrite insert_id; [done|]. by rewrite lookup_fmap, E, Hw.
Qed.

Lemma check_store m id v d t : m !! id = Some (v, d) -> CheckPropertyType id t (store_of m) = (Ok (bool_decide (type_of v = t)), store_of m).
Proof.
  intros E. unfold CheckPropertyType, mbind, call_bind, GetPropertyType. rewrite types_lookup, E. cbn [fmap option_fmap option_map fst]. done.
Qed.

Lemma set_store m id v : 
  SetPropertyValue id v (store_of m) =
    match m !! id with
    | Some (w, d) => if decide (type_of w = type_of v) then (Ok tt, store_of (<[id := (v, d)]> m)) else (Throw, store_of m)
    | None => (Throw, store_of m)
    end.
Proof.
  unfold SetPropertyValue, look. rewrite exists_store. destruct (m !! id) as [[w d]|] eqn:E.
  - rewrite bool_decide_eq_true_2 by eauto. unfold mbind at 1, call_bind at 1. rewrite (check_store m id w d _ E).
    case_decide as Ht.
    + rewrite bool_decide_eq_true_2 by done. rewrite <- Ht. unfold mbind, call_bind. rewrite (get_property_store m id w d E).
      cbn [pdescription]. by apply (put_store m id w d).
    + by rewrite bool_decide_eq_false_2 by done.
  - rewrite bool_decide_eq_false_2; [done|]. by intros [? [=]].
Qed.

Lemma set_cstring_store m id t : (forall w d, m !! id = Some (w, d) -> type_of w = TString) ->
  SetCString id t (store_of m) =
    match m !! id with
    | Some (w, d) => (Ok tt, store_of (<[id := (VString t, d)]> m))
    | None => (Throw, store_of m)
    end.
Proof.
  intros H. unfold SetCString, look. rewrite exists_store. destruct (m !! id) as [[w d]|] eqn:E.
  - rewrite bool_decide_eq_true_2 by eauto. specialize (H w d eq_refl). unfold mbind, call_bind. rewrite <- H.
    rewrite (get_property_store m id w d E). cbn [pdescription]. by apply (put_store m id w d).
  - rewrite bool_decide_eq_false_2; [done|]. by intros [? [=]].
Qed.

Lemma get_store m id t : 
  GetPropertyValue id t (store_of m) =
    match m !! id with
    | Some (w, d) => if decide (type_of w = t) then (Ok w, store_of m) else (Throw, store_of m)
    | None => (Throw, store_of m)
    end.
Proof.
  unfold GetPropertyValue, look. rewrite exists_store. destruct (m !! id) as [[w d]|] eqn:E.
  - rewrite bool_decide_eq_true_2 by eauto. unfold mbind at 1, call_bind at 1. rewrite (check_store m id w d _ E).
    case_decide as Ht.
    + rewrite bool_decide_eq_true_2 by done. subst t. unfold mbind, call_bind. by rewrite (get_property_store m id w d E).
    + by rewrite bool_decide_eq_false_2 by done.
  - rewrite bool_decide_eq_false_2; [done|]. by intros [? [=]].
Qed.

Lemma convert_store env m id t value d w : supported m -> parse_value env (StringToType t) value = Ok w ->
  ConvertPropertyFromString env id t value d (store_of m) = (Ok tt, store_of (<[id := (w, d)]> m)).
Proof.
  intros Hm Hp. unfold ConvertPropertyFromString. set (ty := StringToType t) in *.
  assert (Hw : type_of w = ty /\ ty <> Unknown /\ ty <> TMatrix).
  { clear -Hp. destruct ty; cbn in Hp; try done; try (injection Hp as <-; done);
      match type of Hp with mbind _ ?x = _ => destruct x; try done; injection Hp as <-; done end. }
  destruct Hw as (Hw & Hu & Hx). rewrite decide_False by tauto. unfold mbind at 1, call_bind at 1.
  rewrite add_store; [|done|by rewrite default_type]. unfold mbind, call_bind, stop. rewrite Hp.
  rewrite set_store, lookup_insert. rewrite default_type, Hw, decide_True by done. by rewrite insert_insert.
Qed.

Lemma convert_unsupported env m id t value d : StringToType t = Unknown -> ConvertPropertyFromString env id t value d (store_of m) = (Throw, store_of m).
Proof. intros H. unfold ConvertPropertyFromString. rewrite decide_True by auto. done. Qed.

(** Reset *)
Lemma remove_all_ok l : forall s, NoDup l.*1 ->
  (forall id t, (id, t) ∈ l -> t <> Unknown /\ exists p, properties s !! id = Some (Some p) /\ type_of (pvalue p) = t) ->
  exists n, remove_all l s = (Ok tt, Store n (propertyTypes s) (foldr delete (properties s) l.*1)).
Proof.
  induction l as [|[id t] l IH]; intros s Hnd Hl; [exists (numberProperties s); by destruct s|].
  cbn [fmap list_fmap fst] in Hnd. apply NoDup_cons in Hnd as [Hni Hnd].
  cbn [remove_all]. unfold mbind, call_bind. destruct (Hl id t) as (Ht & p & Hp & Hpt); [left|].
  unfold RemoveTyped. rewrite decide_False by done. rewrite Hp, decide_True by done.
  destruct (IH (Store (number_add (numberProperties s) 4294967295) (propertyTypes s) (delete id (properties s)))) as (n & E); [done| |].
  - intros id' t' Hin. destruct (Hl id' t') as (Ht' & p' & Hp' & Hpt'); [by right|]. split; [done|]. exists p'. split; [|done].
    cbn [properties]. rewrite lookup_delete_ne; [done|]. intros ->. apply Hni. apply elem_of_list_fmap. by exists (id', t').
  - exists n. rewrite E. cbn [propertyTypes properties fmap list_fmap fst foldr]. do 2 f_equal. clear. 
    induction (l.*1) as [|x xs IH]; [done|]. cbn. rewrite IH. apply delete_commute.
Qed.

Lemma foldr_delete_lookup {A} (l : list text) (m : gmap text A) id : foldr delete m l !! id = if decide (id ∈ l) then None else m !! id.
Proof.
  induction l as [|x l IH]; [by rewrite decide_False by apply not_elem_of_nil|]. cbn [foldr].
  destruct (decide (id = x)) as [->|Hne].
  - rewrite lookup_delete. by rewrite decide_True by left.
  - rewrite lookup_delete_ne by done. rewrite IH. apply decide_ext. rewrite elem_of_cons. naive_solver.
Qed.

Lemma reset_store env m : visits_all env -> supported m -> Reset env (store_of m) = (Ok tt, store_of ∅).
Proof.
  intros Hv Hm. unfold Reset, look, mbind, call_bind.
  specialize (Hv (propertyTypes (store_of m))).
  destruct (remove_all_ok (visit env (propertyTypes (store_of m))) (store_of m)) as (n & E).
  - rewrite Hv. apply NoDup_fst_map_to_list.
  - intros id t Hin. rewrite Hv in Hin. apply elem_of_map_to_list in Hin. rewrite types_lookup in Hin.
    destruct (m !! id) as [[v d]|] eqn:E; [|done]. injection Hin as <-. split; [by eapply Hm|]. exists (Property v d). by rewrite props_lookup, E.
  - rewrite E. unfold modify. cbn [propertyTypes properties]. f_equal. unfold store_of. rewrite map_size_empty, !fmap_empty. f_equal.
    apply map_eq. intros id. rewrite foldr_delete_lookup, lookup_empty. case_decide as Hin; [done|].
    destruct (properties (store_of m) !! id) as [p|] eqn:E'; [|done]. exfalso. apply Hin. rewrite Hv.
    rewrite props_lookup in E'. destruct (m !! id) as [[v d]|] eqn:E2; [|done].
    apply elem_of_list_fmap. exists (id, type_of v). split; [done|]. apply elem_of_map_to_list. by rewrite types_lookup, E2.
Qed.

Lemma step_store env o m : visits_all env -> supported m -> allowed env o m ->
  run_op env o (store_of m) = ((spec_op env o m).1, store_of (spec_op env o m).2) /\ supported (spec_op env o m).2.
Proof.
  intros Hv Hm Ha. destruct o as [id v d|id t d|id v|id t|id t|id| |id|id t|id t value d|]; cbn [run_op spec_op].
  - destruct (decide (type_of v = Unknown)) as [Hu|Hu].
    + unfold AddProperty. rewrite decide_True by done. done.
    + rewrite add_store by done. split; [done|]. by apply supported_insert.
  - rewrite add_cstring_store by done. split; [done|]. by apply supported_insert.
  - rewrite set_store. destruct (m !! id) as [[w d]|] eqn:E; [|done]. case_decide as Ht; [|done]. split; [done|].
    apply supported_insert; [done|]. rewrite <- Ht. by eapply Hm.
  - cbn in Ha. rewrite set_cstring_store by done. destruct (m !! id) as [[w d]|] eqn:E; [|done].
    rewrite decide_True by eauto. split; [done|]. by apply supported_insert.
  - rewrite get_store. destruct (m !! id) as [[w d]|] eqn:E; [|done]. by case_decide.
  - rewrite remove_store by done. split; [done|]. by apply supported_delete.
  - rewrite reset_store by done. split; [done|]. intros ? ? ? E. cbn [snd] in E. by rewrite lookup_empty in E.
  - by rewrite exists_store.
  - destruct Ha as [[w d] E]. rewrite (check_store m id w d t E), E. done.
  - destruct Ha as [Hu|[w Hw]].
    + rewrite convert_unsupported by done. rewrite Hu. done.
    + rewrite (convert_store env m id t value d w) by done. rewrite Hw. split; [done|]. apply supported_insert; [done|].
      clear -Hw. destruct (StringToType t); cbn in Hw; try done; try (injection Hw as <-; done);
        match type of Hw with mbind _ ?x = _ => destruct x; try done; injection Hw as <-; done end.
  - cbn in Ha. unfold NumberProperties. cbn [store_of numberProperties]. rewrite N.mod_small by done. done.
Qed.

Lemma empty_store_of : empty_store = store_of ∅.
Proof. unfold store_of. by rewrite map_size_empty, !fmap_empty. Qed.
Lemma supported_empty : supported ∅.
Proof. intros ? ? ? E. by rewrite lookup_empty in E. Qed.

Lemma run_store env ops : visits_all env -> forall m, supported m -> all_allowed env ops m ->
  run_ops env ops (store_of m) = ((spec_ops env ops m).1, store_of (spec_ops env ops m).2) /\ supported (spec_ops env ops m).2.
Proof.
  intros Hv. induction ops as [|o ops IH]; intros m Hm Ha; [done|]. destruct Ha as [Ho Ha]. cbn [run_ops spec_ops].
  destruct (step_store env o m Hv Hm Ho) as [E Hs]. rewrite E. destruct (spec_op env o m) as [a m']. cbn [fst snd] in *.
  destruct (IH m' Hs Ha) as [E' Hs']. rewrite E'. by destruct (spec_ops env ops m').
Qed.

Lemma history env ops : visits_all env -> all_allowed env ops ∅ -> (run_ops env ops empty_store).1 = (spec_ops env ops ∅).1.
Proof. intros Hv Ha. rewrite empty_store_of. destruct (run_store env ops Hv ∅ supported_empty Ha) as [-> _]. done. Qed.
Lemma history_store env ops : visits_all env -> all_allowed env ops ∅ -> (run_ops env ops empty_store).2 = store_of (spec_ops env ops ∅).2.
Proof. intros Hv Ha. rewrite empty_store_of. destruct (run_store env ops Hv ∅ supported_empty Ha) as [-> _]. done. Qed.
Lemma history_supported env ops : visits_all env -> all_allowed env ops ∅ -> supported (spec_ops env ops ∅).2.
Proof. intros Hv Ha. destruct (run_store env ops Hv ∅ supported_empty Ha) as [_ H]. done. Qed.

(** ** A failed conversion *)
Lemma convert_fail env m id t value d : supported m -> (forall w, parse_value env (StringToType t) value <> Ok w) -> 
  StringToType t <> Unknown -> StringToType t <> TMatrix ->
  (ConvertPropertyFromString env id t value d (store_of m)).2 = store_of (<[id := (default_value (StringToType t), d)]> m).
Proof.
  intros Hm Hp Hu Hx. unfold ConvertPropertyFromString. rewrite decide_False by tauto. unfold mbind at 1, call_bind at 1.
  rewrite add_store; [|done|by rewrite default_type]. unfold mbind, call_bind, stop.
  destruct (parse_value env (StringToType t) value) eqn:E; try done. by destruct (Hp a).
Qed.

Lemma convert_others env m id t value d r s : supported m -> ConvertPropertyFromString env id t value d (store_of m) = (r, s) ->
  exists m', s = store_of m' /\ supported m' /\ forall id', id' <> id -> m' !! id' = m !! id'.
Proof.
  intros Hm E. destruct (decide (StringToType t = Unknown \/ StringToType t = TMatrix)) as [Hd|Hd].
  - unfold ConvertPropertyFromString in E. rewrite decide_True in E by done. injection E as _ <-. eauto.
  - destruct (parse_value env (StringToType t) value) as [w| | | |] eqn:Ep.
    + pose proof (convert_store env m id t value d w Hm Ep) as E'. rewrite E in E'. injection E' as _ ->. exists (<[id := (w, d)]> m).
      split; [done|]. split; [|intros; by rewrite lookup_insert_ne]. apply supported_insert; [done|].
      clear -Ep. destruct (StringToType t); cbn in Ep; try done; try (injection Ep as <-; done);
        match type of Ep with mbind _ ?x = _ => destruct x; try done; injection Ep as <-; done end.
    + all: pose proof (convert_fail env m id t value d Hm) as E'; rewrite E, Ep in E'; cbn [snd] in E'; rewrite E' by (done || tauto);
        eexists; split; [done|]; split; [apply supported_insert; [done|by rewrite default_type; tauto]|intros; by rewrite lookup_insert_ne].
    + all: pose proof (convert_fail env m id t value d Hm) as E'; rewrite E, Ep in E'; cbn [snd] in E'; rewrite E' by (done || tauto);
        eexists; split; [done|]; split; [apply supported_insert; [done|by rewrite default_type; tauto]|intros; by rewrite lookup_insert_ne].
    + all: pose proof (convert_fail env m id t value d Hm) as E'; rewrite E, Ep in E'; cbn [snd] in E'; rewrite E' by (done || tauto);
        eexists; split; [done|]; split; [apply supported_insert; [done|by rewrite default_type; tauto]|intros; by rewrite lookup_insert_ne].
    + all: pose proof (convert_fail env m id t value d Hm) as E'; rewrite E, Ep in E'; cbn [snd] in E'; rewrite E' by (done || tauto);
        eexists; split; [done|]; split; [apply supported_insert; [done|by rewrite default_type; tauto]|intros; by rewrite lookup_insert_ne].
Qed.

(** ** Types *)
Lemma type_back t : t <> TMatrix -> StringToType (TypeToString t) = t.
Proof. destruct t; intros H; try done. Qed.

Lemma lower_idemp c : lower (lower c) = lower c.
Proof. destruct c as [[] [] [] [] [] [] [] []]; vm_compute; reflexivity. Qed.
Lemma lower_upper c : lower (upper c) = lower c.
Proof. destruct c as [[] [] [] [] [] [] [] []]; vm_compute; reflexivity. Qed.
Lemma type_case s s' : ToLower s = ToLower s' -> StringToType s = StringToType s'.
Proof. intros E. unfold StringToType. by rewrite E. Qed.
