(** * Model of GeDiM/src/Common/CommonUtilities.{hpp,cpp}.

    [int] is [Z]: no value exceeds the largest of 1 and the parameter [n], so there is no overflow. *)
From Verif Require Export QcTac.
Local Open Scope nat_scope.

(** One iteration of the first loop of CombinationWithRepetition, CommonUtilities.cpp:26-36; [n] is already decremented.
    The inner [for (int k = i; k >= 0; --k)] shadows [k]. *)
Definition carry (n : Z) (v : list Z) (i : nat) : outcome (list Z) :=
  x ← vget v i;
  if (n <? x)%Z then
    y ← vget v (i + 1);
    v1 ← vset v (i + 1) (y + 1)%Z;
    ofold (fun v j => z ← vget v (i + 1); vset v j z) (rev (seq 0 (i + 1))) v1
  else Ok v.

(** The loop [while (true)], 24-43. *)
Fixpoint combinations (fuel : nat) (n : Z) (k : nat) (v : list Z) (result : list (list Z)) : outcome (list (list Z)) :=
  match fuel with
  | 0 => OutOfFuel
  | S fuel =>
      v ← ofold (carry n) (seq 0 k) v;
      last ← vget v k;
      if (0 <? last)%Z then Ok result
      else
        let result := result ++ [take (length v - 1) v] in
        x ← vget v 0;
        v ← vset v 0 (x + 1)%Z;
        combinations fuel n k v result
  end.

(** CombinationWithRepetition, 18-46, for [k >= 0]. *)
Definition CombinationWithRepetition (fuel : nat) (n : Z) (k : nat) : outcome (list (list Z)) :=
  combinations fuel (n - 1) k (replicate (k + 1) 0%Z) [].

(** BinomialCoefficient, CommonUtilities.hpp:87-98; exact naturals instead of [double]. *)
Fixpoint BinomialCoefficient (n k : nat) : N :=
  if n <? k then 0%N
  else if (k =? 0) || (k =? n) then 1%N
  else match n with
       | 0 => 0%N (* not reached: k <= n = 0 *)
       | S n' => (BinomialCoefficient n' (k - 1) + BinomialCoefficient n' k)%N
       end.

(** RandomArrayNoRepetition, CommonUtilities.cpp:48-61: [shuffle] is what [std::shuffle] does with the given seed. *)
Definition RandomArrayNoRepetition (shuffle : list nat -> list nat) (n maxNumber : nat) : outcome (list nat) :=
  if n =? 0 then Ok []
  else require (n <=? maxNumber);; Ok (vresize (shuffle (seq 0 maxNumber)) n 0).

(** [std::accumulate] and [std::inner_product] from [0.0]. *)
Definition accumulate (l : list Qc) : Qc := fold_left (fun s x => s + x)%Qc l 0%Qc.
Definition inner_product (l l' : list Qc) : Qc := fold_left (fun s p => s + p.1 * p.2)%Qc (zip l l') 0%Qc.

(** Slope, CommonUtilities.hpp:73-84, in exact arithmetic; the ranges hold [n] values each.  A zero denominator, which
    gives an infinity or a NaN, is [Throw] here. *)
Definition Slope (x y : list Qc) : outcome Qc :=
  let n := Q2Qc (inject_Z (Z.of_nat (length x))) in
  let s_x := accumulate x in
  let s_y := accumulate y in
  let s_xx := inner_product x x in
  let s_xy := inner_product x y in
  let d := (n * s_xx - s_x * s_x)%Qc in
  if qeq d 0 then Throw else Ok ((n * s_xy - s_x * s_y) / d)%Qc.
