(** Combinations with repetition. *)
From Verif Require Import BaseProof CommonModel CommonSpec.
From Coq Require Import Sorted.
Local Open Scope nat_scope.

(** ** The carry *)
Lemma fill_ok (i : nat) (x : Z) (s : list Z) : forall j l, length l = j -> j <= i + 1 ->
  ofold (fun v j => z ← vget v (i + 1); vset v j z) (rev (seq 0 j)) (l ++ replicate (i + 1 - j) x ++ x :: s) =
  Ok (replicate (i + 1) x ++ x :: s).
Proof.
  induction j as [|j IH]; intros l Hl Hj.
  - destruct l; [|done]. cbn [seq rev ofold app]. by rewrite Nat.sub_0_r.
  - rewrite seq_S, rev_app_distr. cbn [rev app ofold].
    destruct l as [|y l] using rev_ind; [done|]. clear IHl. rewrite app_length in Hl. cbn in Hl.
    assert (Hj' : length l = j) by lia.
    rewrite (vget_Ok _ _ x).
    2:{ rewrite lookup_app_r by (rewrite app_length; cbn; lia). rewrite app_length. cbn [length].
        rewrite lookup_app_r by (rewrite replicate_length; lia). rewrite replicate_length.
        by replace (i + 1 - (length l + 1) - (i + 1 - S j)) with 0 by lia. }
    cbn [mbind outcome_bind]. rewrite vset_Ok by (rewrite !app_length; cbn; lia). cbn [mbind outcome_bind].
    rewrite <- app_assoc. cbn [app]. replace (0 + j) with (length l + 0) by lia. rewrite insert_app_r. cbn [insert list_insert].
    rewrite <- (IH l); [|done|lia]. f_equal. f_equal. replace (i + 1 - j) with (S (i + 1 - S j)) by lia. done.
Qed.

Lemma carry_none n v i x : v !! i = Some x -> (x <= n)%Z -> carry n v i = Ok v.
Proof. intros H Hx. unfold carry. rewrite (vget_Ok _ _ _ H). cbn [mbind outcome_bind]. by destruct (Z.ltb_spec n x); [lia|]. Qed.

Lemma carry_some n l x y s : (n < x)%Z ->
  carry n (l ++ x :: y :: s) (length l) = Ok (replicate (length l + 1) (y + 1)%Z ++ (y + 1)%Z :: s).
Proof.
  intros Hx. unfold carry. rewrite (vget_Ok (l ++ x :: y :: s) (length l) x) by (by apply list_lookup_middle). cbn [mbind outcome_bind].
  destruct (Z.ltb_spec n x); [|lia].
  rewrite (vget_Ok _ _ y) by (rewrite lookup_app_r by lia; by replace (length l + 1 - length l) with 1 by lia).
  cbn [mbind outcome_bind]. rewrite vset_Ok by (rewrite app_length; cbn; lia). cbn [mbind outcome_bind].
  rewrite insert_app_r. cbn [insert list_insert].
  rewrite <- (fill_ok (length l) (y + 1) s (length l + 1) (l ++ [x])); [|rewrite app_length; cbn; lia|lia].
  rewrite Nat.sub_diag. cbn [replicate app]. by rewrite <- app_assoc.
Qed.

(** ** The enumeration *)
Section enum.
Context (n : Z) (k : nat).

(** All non-increasing lists of [j] numbers between [c] and [n], the last number varying slowest. *)
Fixpoint lists_from (j : nat) (c : Z) : list (list Z) :=
  match j with
  | 0 => [[]]
  | S j => concat (map (fun d => map (fun e => e ++ [d]) (lists_from j d)) (seqZ c (n + 1 - c)))
  end.

Lemma lists_from_S j c : (c <= n)%Z ->
  lists_from (S j) c = map (fun e => e ++ [c]) (lists_from j c) ++ lists_from (S j) (c + 1).
Proof.
  intros H. cbn [lists_from]. rewrite seqZ_cons by lia. cbn [map concat]. by replace (Z.pred (n + 1 - c)) with (n + 1 - (c + 1))%Z by lia.
Qed.
Lemma lists_from_over j c : (n < c)%Z -> lists_from (S j) c = [].
Proof. intros H. cbn [lists_from]. by rewrite seqZ_nil by lia. Qed.

Definition after_pass (fuel : nat) (v : list Z) (result : list (list Z)) : outcome (list (list Z)) :=
  last ← vget v k;
  if (0 <? last)%Z then Ok result
  else x ← vget v 0; v' ← vset v 0 (x + 1)%Z; combinations fuel n k v' (result ++ [take (length v - 1) v]).

Definition mid_pass (fuel i : nat) (v : list Z) (result : list (list Z)) : outcome (list (list Z)) :=
  v ← ofold (carry n) (seq i (k - i)) v; after_pass fuel v result.

Lemma combinations_mid fuel v result : combinations (S fuel) n k v result = mid_pass fuel 0 v result.
Proof. unfold mid_pass. by rewrite Nat.sub_0_r. Qed.

Lemma pass_rest i v : (forall j x, i <= j < k -> v !! j = Some x -> (x <= n)%Z) -> length v = k + 1 -> i <= k ->
  ofold (carry n) (seq i (k - i)) v = Ok v.
Proof.
  intros Hv Hl Hi. remember (k - i) as d eqn:Ed. revert i Hv Hi Ed. induction d as [|d IH]; intros i Hv Hi Ed; cbn [seq ofold]; [done|].
  destruct (lookup_lt_is_Some_2 v i) as [x Hx]; [lia|]. rewrite (carry_none n v i x Hx) by (eapply Hv; [|done]; lia).
  cbn [mbind outcome_bind]. apply IH; [|lia|lia]. intros j y Hj. apply Hv. lia.
Qed.

Lemma lists_from_nonempty j c : (c <= n)%Z -> lists_from j c <> [].
Proof.
  revert c. induction j as [|j IH]; intros c Hc; [done|]. rewrite lists_from_S by done. specialize (IH c Hc).
  by destruct (lists_from j c).
Qed.

Lemma run_block : forall j fuel c s0 s result, j + length s = k -> (c <= n)%Z -> Forall (fun x => (x <= n)%Z) (s0 :: s) ->
  last (s0 :: s) = Some 0%Z ->
  after_pass (length (lists_from j c) + fuel) (replicate j c ++ s0 :: s) result =
  mid_pass fuel j (replicate j (s0 + 1)%Z ++ (s0 + 1)%Z :: s) (result ++ map (fun e => e ++ removelast (s0 :: s)) (lists_from j c)).
Proof.
  induction j as [|j IH]; intros fuel c s0 s result Hk Hc Hs Hlast.
  - unfold after_pass. cbn [replicate app]. rewrite (vget_Ok (s0 :: s) k 0%Z).
    2:{ rewrite last_lookup in Hlast. cbn [length] in Hlast. by replace k with (pred (S (length s))) by lia. }
    cbn [mbind outcome_bind]. change (0 <? 0)%Z with false. cbv iota.
    rewrite (vget_Ok (s0 :: s) 0 s0) by done. cbn [mbind outcome_bind]. rewrite vset_Ok by (cbn; lia). cbn [mbind outcome_bind insert list_insert].
    cbn [lists_from length Nat.add]. rewrite combinations_mid. f_equal. cbn [map app]. do 2 f_equal.
    rewrite removelast_firstn_len. f_equal. cbn. lia.
  - remember (Z.to_nat (n - c)) as d eqn:Ed. revert c Hc Ed fuel result. induction d as [|d IHd]; intros c Hc Ed fuel result.
    + assert (c = n) as -> by lia. rewrite lists_from_S by lia. rewrite lists_from_over by lia. rewrite app_nil_r, map_length.
      rewrite replicate_S_end, <- app_assoc. cbn [app]. rewrite IH; [|cbn; lia|lia|by constructor|by rewrite last_cons_cons].
      unfold mid_pass at 1. replace (k - j) with (S (k - S j)) by lia. cbn [seq ofold].
      pose proof (carry_some n (replicate j (n + 1)%Z) (n + 1) s0 s ltac:(lia)) as E. rewrite replicate_length in E. rewrite E.
      cbn [mbind outcome_bind]. rewrite Nat.add_1_r. unfold mid_pass. rewrite map_map.
      assert (Em : forall l : list (list Z), map (fun e => e ++ removelast (n :: s0 :: s)) l = map (fun e => (e ++ [n]) ++ removelast (s0 :: s)) l).
      { intros l. apply map_ext. intros e. rewrite <- app_assoc. done. }
      by rewrite Em.
    + rewrite lists_from_S by lia. rewrite app_length, map_length.
      rewrite replicate_S_end, <- app_assoc. cbn [app]. rewrite <- Nat.add_assoc.
      rewrite IH; [|cbn; lia|lia|by constructor; [lia|]|by rewrite last_cons_cons].
      assert (E : replicate j (c + 1)%Z ++ (c + 1)%Z :: s0 :: s = replicate (S j) (c + 1)%Z ++ s0 :: s) by (by rewrite replicate_S_end, <- app_assoc).
      unfold mid_pass at 1. rewrite E. rewrite pass_rest.
      * cbn [mbind outcome_bind]. rewrite (IHd (c + 1)%Z); [|lia|lia]. f_equal. rewrite map_app, app_assoc. f_equal. f_equal.
        rewrite map_map. apply map_ext. intros e. rewrite <- app_assoc. done.
      * intros i x Hi Hx. destruct (decide (i < S j)).
        -- rewrite lookup_app_l in Hx by (rewrite replicate_length; lia). apply lookup_replicate in Hx as [-> _]. lia.
        -- rewrite lookup_app_r in Hx by (rewrite replicate_length; lia). eapply Forall_lookup_1 in Hs; [|done]. done.
      * rewrite app_length, replicate_length. cbn. lia.
      * lia.
Qed.

Lemma combinations_enum fuel : (0 <= n)%Z -> length (lists_from k 0) < fuel ->
  combinations fuel n k (replicate (k + 1) 0%Z) [] = Ok (lists_from k 0).
Proof.
  intros Hn Hf. destruct fuel as [|fuel]; [lia|]. rewrite combinations_mid. unfold mid_pass. rewrite pass_rest.
  - cbn [mbind outcome_bind]. rewrite replicate_add. cbn [replicate].
    replace fuel with (length (lists_from k 0) + (fuel - length (lists_from k 0))) by lia.
    rewrite run_block; [|cbn; lia|lia|by repeat constructor|done].
    unfold mid_pass. rewrite Nat.sub_diag. cbn [seq ofold mbind outcome_bind]. unfold after_pass. rewrite (vget_Ok _ k 1%Z).
    + cbn. f_equal. rewrite <- (map_id (lists_from k 0)) at 2. apply map_ext. intros e. by rewrite app_nil_r.
    + rewrite lookup_app_r by (rewrite replicate_length; lia). by rewrite replicate_length, Nat.sub_diag.
  - intros j x _ Hx. apply lookup_replicate in Hx as [-> _]. done.
  - by rewrite replicate_length.
  - lia.
Qed.

(** ** What is enumerated *)
Lemma lists_from_elem j : forall c e, e ∈ lists_from j c <->
  length e = j /\ StronglySorted Z.ge e /\ Forall (fun x => c <= x <= n)%Z e.
Proof.
  induction j as [|j IH]; intros c e.
  - cbn [lists_from]. rewrite elem_of_list_singleton. split; [intros ->; repeat constructor|]. intros [H _]. by apply nil_length_inv.
  - cbn [lists_from]. rewrite elem_of_list_In, in_concat. split.
    + intros (l & Hl & He). apply in_map_iff in Hl as (d & <- & Hd). apply elem_of_list_In, elem_of_seqZ in Hd.
      apply in_map_iff in He as (e' & <- & He'). apply elem_of_list_In, IH in He' as (A & B & C).
      split_and!.
      * rewrite app_length. cbn. lia.
      * clear -B C. induction e' as [|x e' IHe]; cbn; [repeat constructor|]. apply StronglySorted_inv in B as [B1 B2].
        rewrite Forall_cons in C. destruct C as [C1 C2]. constructor; [by apply IHe|]. apply Forall_app. split; [done|]. constructor; [lia|constructor].
      * apply Forall_app. split; [|constructor; [lia|constructor]]. eapply Forall_impl; [exact C|]. cbn. lia.
    + intros (A & B & C). destruct e as [|d e _] using rev_ind; [done|]. rewrite app_length in A. cbn in A.
      apply Forall_app in C as [C1 C2]. rewrite Forall_cons in C2. destruct C2 as [C2 _].
      exists (map (fun e => e ++ [d]) (lists_from j d)). split.
      * apply in_map_iff. exists d. split; [done|]. apply elem_of_list_In, elem_of_seqZ. lia.
      * apply in_map_iff. exists e. split; [done|]. apply elem_of_list_In, IH.
        assert (H : StronglySorted Z.ge e /\ Forall (fun x => d <= x)%Z e).
        { clear -B. induction e as [|x e IHe]; [repeat constructor|]. cbn in B. apply StronglySorted_inv in B as [B1 B2].
          apply Forall_app in B2 as [B2 B3]. rewrite Forall_cons in B3. destruct (IHe B1) as [H1 H2]. split; constructor; try done. lia. }
        destruct H as [H1 H2]. split_and!; [lia|done|]. rewrite Forall_forall in *. naive_solver.
Qed.

Lemma lists_from_nodup j : forall c, NoDup (lists_from j c).
Proof.
  induction j as [|j IH]; intros c; [apply NoDup_singleton|].
  remember (Z.to_nat (n + 1 - c)) as d eqn:Ed. revert c Ed. induction d as [|d IHd]; intros c Ed.
  - rewrite lists_from_over by lia. constructor.
  - rewrite lists_from_S by lia. apply NoDup_app. split_and!.
    + change (NoDup ((fun e => e ++ [c]) <$> lists_from j c)). apply NoDup_fmap_2; [|apply IH]. intros e e' H. by apply app_inj_tail in H as [-> _].
    + intros e He Hin. apply elem_of_list_In, in_map_iff in He as (e' & <- & _). apply lists_from_elem in Hin as (_ & _ & C).
      apply Forall_app in C as [_ C]. rewrite Forall_cons in C. lia.
    + apply IHd. lia.
Qed.
End enum.

(** ** Binomial coefficients *)
Lemma binomial_over m k : m < k -> BinomialCoefficient m k = 0%N.
Proof. intros H%Nat.ltb_lt. destruct m; cbn [BinomialCoefficient]; by rewrite H. Qed.
Lemma binomial_0 m : BinomialCoefficient m 0 = 1%N.
Proof. by destruct m. Qed.
Lemma binomial_diag m : BinomialCoefficient m m = 1%N.
Proof. destruct m as [|m]; [done|]. cbn [BinomialCoefficient]. by rewrite Nat.ltb_irrefl, Nat.eqb_refl, orb_true_r. Qed.
Lemma binomial_pascal m k : BinomialCoefficient (S m) (S k) = (BinomialCoefficient m k + BinomialCoefficient m (S k))%N.
Proof.
  destruct (decide (m < k)). { rewrite !binomial_over by lia. done. }
  destruct (decide (m = k)) as [->|]. { rewrite !binomial_diag, binomial_over by lia. done. }
  cbn [BinomialCoefficient]. destruct (Nat.ltb_spec (S m) (S k)); [lia|]. destruct (Nat.eqb_spec (S k) 0); [lia|].
  destruct (Nat.eqb_spec (S k) (S m)); [lia|]. cbn [orb]. by rewrite Nat.sub_succ, Nat.sub_0_r.
Qed.

Lemma binomial_factorial : forall m k, k <= m -> (BinomialCoefficient m k * factorial k * factorial (m - k) = factorial m)%N.
Proof.
  induction m as [|m IH]; intros k Hk; [by assert (k = 0) as -> by lia|].
  destruct k as [|k]. { rewrite binomial_0, Nat.sub_0_r. change (factorial 0) with 1%N. lia. }
  destruct (decide (k = m)) as [->|Hne]. { rewrite binomial_diag, Nat.sub_diag. change (factorial 0) with 1%N. lia. }
  rewrite binomial_pascal. pose proof (IH k ltac:(lia)) as H1. pose proof (IH (S k) ltac:(lia)) as H2.
  replace (S m - S k) with (S (m - S k)) by lia. replace (m - k) with (S (m - S k)) in H1 by lia.
  assert (F : forall n, factorial (S n) = (N.of_nat (S n) * factorial n)%N) by done. rewrite !F in *.
  set (a := BinomialCoefficient m k) in *. set (b := BinomialCoefficient m (S k)) in *.
  set (x := factorial k) in *. set (y := factorial (m - S k)) in *. set (z := factorial m) in *. clearbody a b x y z.
  assert (E : N.of_nat (S m) = (N.of_nat (S (m - S k)) + N.of_nat (S k))%N) by lia. rewrite E.
  transitivity (N.of_nat (S k) * (a * x * (N.of_nat (S (m - S k)) * y)) + N.of_nat (S (m - S k)) * (b * (N.of_nat (S k) * x) * y))%N; [ring|].
  rewrite H1, H2. ring.
Qed.

Lemma lists_from_length n j : forall c, (c <= n + 1)%Z ->
  N.of_nat (length (lists_from n j c)) = BinomialCoefficient (Z.to_nat (n + 1 - c) + j - 1) j.
Proof.
  induction j as [|j IH]; intros c Hc; [by rewrite binomial_0|].
  remember (Z.to_nat (n + 1 - c)) as d eqn:Ed. revert c Hc Ed. induction d as [|d IHd]; intros c Hc Ed.
  - rewrite lists_from_over by lia. rewrite binomial_over by lia. done.
  - rewrite lists_from_S by lia. rewrite app_length, map_length, Nat2N.inj_add. rewrite IH, (IHd (c + 1)%Z) by lia.
    replace (S d + S j - 1) with (S (d + j)) by lia. rewrite binomial_pascal. f_equal; f_equal; lia.
Qed.

(** ** Statement of C34 *)
Lemma sorted_perm_eq (l : list Z) : forall l', StronglySorted Z.ge l -> StronglySorted Z.ge l' -> l ≡ₚ l' -> l = l'.
Proof.
  induction l as [|x l IH]; intros l' H H' Hp.
  - by apply Permutation_nil in Hp.
  - destruct l' as [|y l']; [by apply Permutation_sym, Permutation_nil in Hp|].
    apply StronglySorted_inv in H as [H Hx]. apply StronglySorted_inv in H' as [H' Hy]. rewrite Forall_forall in Hx, Hy.
    assert (x = y) as ->.
    { assert (A : x ∈ y :: l') by (rewrite <- Hp; left). assert (B : y ∈ x :: l) by (rewrite Hp; left).
      apply elem_of_cons in A as [A|A]; [done|]. apply elem_of_cons in B as [B|B]; [done|]. specialize (Hx _ B). specialize (Hy _ A). lia. }
    f_equal. apply IH; [done|done|]. by apply Permutation_cons_inv in Hp.
Qed.

Lemma sort_exists (l : list Z) : exists l', l' ≡ₚ l /\ StronglySorted Z.ge l'.
Proof.
  induction l as [|x l (l' & Hp & Hs)]; [exists []; split; [done|constructor]|].
  assert (H : exists m, m ≡ₚ x :: l' /\ StronglySorted Z.ge m).
  { clear Hp l. induction l' as [|y l' IH]; [exists [x]; split; [done|repeat constructor]|].
    pose proof Hs as Hs0. apply StronglySorted_inv in Hs as [Hs Hy]. destruct (decide (y <= x)%Z).
    - exists (x :: y :: l'). split; [done|]. constructor; [done|]. rewrite Forall_forall in *.
      intros z [->|Hz]%elem_of_cons; [lia|]. specialize (Hy _ Hz). lia.
    - destruct (IH Hs) as (m & Hm & Hm'). exists (y :: m). split; [rewrite Hm; constructor|]. constructor; [done|].
      rewrite Forall_forall in *. intros z Hz. rewrite Hm in Hz. apply elem_of_cons in Hz as [->|Hz]; [lia|by apply Hy]. }
  destruct H as (m & Hm & Hm'). exists m. split; [|done]. by rewrite Hm, Hp.
Qed.

Lemma combinations_zero k fuel : 0 < k -> 0 < fuel -> combinations fuel (-1) k (replicate (k + 1) 0%Z) [] = Ok [].
Proof.
  intros Hk Hf. destruct fuel as [|fuel]; [lia|]. cbn [combinations].
  assert (H : forall i, i <= k -> ofold (carry (-1)) (seq 0 i) (replicate (k + 1) 0%Z) =
    Ok (match i with 0 => replicate (k + 1) 0%Z | S _ => replicate (S i) 1%Z ++ replicate (k - i) 0%Z end)).
  { induction i as [|i IH]; intros Hi; [done|]. rewrite seq_S, ofold_app, IH by lia. cbn [mbind outcome_bind ofold Nat.add].
    destruct i as [|i].
    - pose proof (carry_some (-1) [] 0 0 (replicate (k - 1) 0%Z) ltac:(lia)) as E. cbn [app length] in E.
      replace (k + 1) with (S (S (k - 1))) by lia. cbn [replicate]. rewrite E. done.
    - pose proof (carry_some (-1) (replicate (S i) 1%Z) 1 0 (replicate (k - S (S i)) 0%Z) ltac:(lia)) as E. rewrite replicate_length in E.
      replace (k - S i) with (S (k - S (S i))) by lia. 
      replace (replicate (S (S i)) 1%Z) with (replicate (S i) 1%Z ++ [1%Z]) by (by rewrite <- replicate_S_end).
      rewrite <- app_assoc. cbn [app replicate] in E |- *. rewrite E. cbn [mbind outcome_bind]. f_equal.
      change (0 + 1)%Z with 1%Z. rewrite Nat.add_1_r. symmetry. 
      change (1%Z :: 1%Z :: 1%Z :: replicate i 1%Z ++ replicate (k - S (S i)) 0%Z) with (replicate (S (S (S i))) 1%Z ++ replicate (k - S (S i)) 0%Z).
      rewrite (replicate_S_end (S (S i))), <- app_assoc. done. }
  rewrite H by lia. cbn [mbind outcome_bind]. destruct k as [|k]; [lia|].
  rewrite (vget_Ok _ (S k) 1%Z); [done|]. rewrite lookup_app_l by (rewrite replicate_length; lia). apply lookup_replicate. split; [done|lia].
Qed.

Lemma combinations_ok n k fuel : (0 <= n)%Z -> (BinomialCoefficient (Z.to_nat n + k - 1) k < N.of_nat fuel)%N ->
  exists l, CombinationWithRepetition fuel n k = Ok l /\
    (forall i w, l !! i = Some w -> selection n k w) /\
    (forall w, selection n k w -> exists i, (exists w', l !! i = Some w' /\ w' ≡ₚ w) /\ forall j w', l !! j = Some w' -> w' ≡ₚ w -> j = i) /\
    N.of_nat (length l) = BinomialCoefficient (Z.to_nat n + k - 1) k.
Proof.
  intros Hn Hf. exists (lists_from (n - 1) k 0).
  pose proof (lists_from_length (n - 1) k 0 ltac:(lia)) as Hlen. replace (n - 1 + 1 - 0)%Z with n in Hlen by lia.
  split_and!; [| | |done].
  - unfold CombinationWithRepetition. destruct (decide (n = 0%Z)) as [->|].
    + destruct k as [|k].
      * destruct fuel as [|[|fuel]]; [rewrite binomial_0 in Hf; lia|rewrite binomial_0 in Hf; lia|]. done.
      * rewrite lists_from_over by lia. apply combinations_zero; lia.
    + apply combinations_enum; lia.
  - intros i w Hi. apply elem_of_list_lookup_2, lists_from_elem in Hi as (A & _ & C). split; [done|]. eapply Forall_impl; [exact C|]. cbn. lia.
  - intros w [A C]. destruct (sort_exists w) as (w' & Hp & Hs).
    assert (Hin : w' ∈ lists_from (n - 1) k 0).
    { apply lists_from_elem. split_and!; [by rewrite Hp|done|]. rewrite Hp. eapply Forall_impl; [exact C|]. cbn. lia. }
    apply elem_of_list_lookup in Hin as [i Hi]. exists i. split; [by exists w'|]. intros j w2 Hj Hp2.
    assert (w2 = w') as ->.
    { apply elem_of_list_lookup_2, lists_from_elem in Hj as (_ & B & _). apply sorted_perm_eq; [done|done|]. by rewrite Hp2, Hp. }
    exact (NoDup_lookup _ j i w' (lists_from_nodup (n - 1) k 0) Hj Hi).
Qed.

(** ** Random arrays *)
Lemma random_ok shuffle n maxNumber : (forall l, shuffle l ≡ₚ l) -> n <= maxNumber ->
  exists l, RandomArrayNoRepetition shuffle n maxNumber = Ok l /\ length l = n /\ NoDup l /\ Forall (fun x => x < maxNumber) l.
Proof.
  intros Hs Hn. unfold RandomArrayNoRepetition. destruct (Nat.eqb_spec n 0) as [->|].
  - exists []. split_and!; try done; constructor.
  - rewrite (proj2 (Nat.leb_le n maxNumber) Hn). cbn. eexists. split; [done|]. rewrite vresize_length. split; [done|].
    assert (E : vresize (shuffle (seq 0 maxNumber)) n 0 = take n (shuffle (seq 0 maxNumber))).
    { unfold vresize. rewrite (Permutation_length (Hs _)), seq_length. replace (n - maxNumber) with 0 by lia. apply app_nil_r. }
    rewrite E. pose proof (Hs (seq 0 maxNumber)) as Hp. split.
    + assert (H : NoDup (shuffle (seq 0 maxNumber))) by (rewrite Hp; apply NoDup_seq).
      rewrite <- (take_drop n) in H. by apply NoDup_app in H as [H _].
    + apply Forall_take. rewrite Hp. apply Forall_forall. intros x [_ H]%elem_of_seq. done.
Qed.
