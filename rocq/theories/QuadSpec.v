(** * Notions used in the statements about quadrature rules *)
From Coq Require Import QArith Qcanon.
From Verif Require Import Base QcTac QuadModel.
Local Open Scope Qc_scope.

(** Integers and dyadic numbers as rationals. *)
Definition ZQ (z : Z) : Qc := Q2Qc (inject_Z z).
Definition dyq (x : dyadic) : Qc := ZQ x.1 / ZQ (2 ^ x.2).

Definition qsum (l : list Qc) : Qc := foldr Qcplus 0 l.
Definition qprod (l : list Qc) : Qc := foldr Qcmult 1 l.

(** Polynomials in several variables: exponents and coefficients. *)
Definition polynomial : Type := list (list nat * Qc).
Definition monomial_at (a : list nat) (x : list Qc) : Qc := qprod (zip_with (fun k t => t ^ k) a x).
Definition polynomial_at (p : polynomial) (x : list Qc) : Qc := qsum ((fun t => t.2 * monomial_at t.1 x) <$> p).
(** [d] variables and total degree at most [n]. *)
Definition of_degree (d n : nat) (p : polynomial) : Prop := Forall (fun t => length t.1 = d /\ (sum_list t.1 <= n)%nat) p.

(** Integrals of monomials over the unit cube and over the unit simplex (Dirichlet's formula). *)
Definition integral_cube (a : list nat) : Qc := qprod ((fun k => / ZQ (Z.of_nat (S k))) <$> a).
Definition integral_simplex (a : list nat) : Qc :=
  qprod ((fun k => ZQ (Z.of_nat (fact k))) <$> a) / ZQ (Z.of_nat (fact (length a + sum_list a))).
(** ... and of polynomials; [integral_abs] is the integral of the polynomial with the absolute values of the coefficients. *)
Definition integral (moment : list nat -> Qc) (p : polynomial) : Qc := qsum ((fun t => t.2 * moment t.1) <$> p).
Definition integral_abs (moment : list nat -> Qc) (p : polynomial) : Qc := qsum ((fun t => qabs t.2 * moment t.1) <$> p).

(** The coordinates (the first [d] rows) and weights as rationals, and the approximate integral of a function. *)
Definition nodes (r : rule) : list (list Qc * Qc) := (fun c : list decimal * decimal => ((fun l => dyq (double_of l)) <$> c.1, dyq (double_of c.2))) <$> columns r.
Definition approximate (r : rule) (f : list Qc -> Qc) : Qc := qsum ((fun xw => xw.2 * f xw.1) <$> nodes r).

(** All polynomials up to degree [n] are integrated with an error of at most [eps] times [integral_abs]. *)
Definition accurate (moment : list nat -> Qc) (d n : nat) (eps : Qc) (r : rule) : Prop :=
  forall p, of_degree d n p ->
    qabs (approximate r (polynomial_at p) - integral moment p) <= eps * integral_abs moment p.

(** All entries of the matrix of points have a value, and those after the first [d] rows are zero. *)
Definition determined (d : nat) (r : rule) : Prop :=
  forall c, c ∈ columns r -> length c.1 = d /\ forall i, (i < 3)%nat ->
    exists x, coordinate r c.1 i = Some x /\ ((d <= i)%nat -> x = (0, 0)%Z).
Definition positive_weights (r : rule) : Prop := forall x w, (x, w) ∈ nodes r -> 0 < w.
Definition inside_cube (r : rule) : Prop := forall x w, (x, w) ∈ nodes r -> Forall (fun t => 0 <= t <= 1) x.
Definition inside_simplex (r : rule) : Prop := forall x w, (x, w) ∈ nodes r -> Forall (fun t => 0 <= t) x /\ qsum x <= 1.
