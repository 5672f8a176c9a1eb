(** * Model of [poly1d] (cfdtools/utils/polybase.py:14-41), with exact numbers.

    The numbers are a field of characteristic 0.  The series of numpy are the polynomials they stand for:
    a coefficient list [(0,)*i + (1,)] is the i-th polynomial of the basis, its [deriv()] the derivative,
    and calling it is evaluation; rounding is not modelled.  The roots given by scipy are a parameter. *)
From mathcomp Require Import all_ssreflect all_algebra.
Set Implicit Arguments.
Unset Strict Implicit.
Unset Printing Implicit Defensive.
Import GRing.Theory Num.Theory.
Local Open Scope ring_scope.

Section Poly.
  Variable F : numFieldType.

  (** [polybasis_dict], polybase.py:11. *)
  Inductive series : Type := Legendre | Monomial.
  (** Legendre polynomials: (i + 2) P_(i+2) = (2 i + 3) x P_(i+1) - (i + 1) P_i. *)
  Fixpoint legendre2 (i : nat) : {poly F} * {poly F} :=
    if i is i'.+1 then
      let (p, q) := legendre2 i' in (q, (i'.+2%:R)^-1 *: ((2 * i' + 3)%:R *: ('X * q) - i'.+1%:R *: p))
    else (1, 'X).
  Definition legendre (i : nat) : {poly F} := (legendre2 i).1.
  (** [self._polyeval(ibas)], and [_gradbasis], polybase.py:19-21. *)
  Definition basis (s : series) (i : nat) : {poly F} := if s is Legendre then legendre i else 'X^i.
  Definition gradbasis (s : series) (i : nat) : {poly F} := (basis s i)^`().

  Section Order.
    Variables (s : series) (n : nat) (roots : 'I_n -> F).
    (** [vdm], polybase.py:23-26. *)
    Definition vdm : 'M[F]_n := \matrix_(i, j) (basis s i).[roots j].
    (** [invvdm], polybase.py:28-30: [lin.inv] raises LinAlgError (None) on a singular matrix. *)
    Definition invvdm : option 'M[F]_n := if vdm \in unitmx then Some (invmx vdm) else None.
    (** [interp_weights], polybase.py:32-33, and [diff_weights], polybase.py:37-38. *)
    Definition interp_weights (x : F) : option ('I_n -> F) :=
      if invvdm is Some m then Some (fun j => (m *m \col_i (basis s i).[x]) j ord0) else None.
    Definition diff_weights (x : F) : option ('I_n -> F) :=
      if invvdm is Some m then Some (fun j => (m *m \col_i (gradbasis s i).[x]) j ord0) else None.
  End Order.
End Poly.
