(** * Property C54 (interpolation and derivative weights). *)
From mathcomp Require Import all_ssreflect all_algebra.
From Verif Require Import Poly.
Set Implicit Arguments.
Unset Strict Implicit.
Unset Printing Implicit Defensive.
Import GRing.Theory Num.Theory.
Local Open Scope ring_scope.

Section Poly.
  Variable F : numFieldType.
  Implicit Types (x : F) (p : {poly F}) (s : series).

  (** ** The bases have one polynomial of each degree *)
  Lemma size_legendre2 i : size (@legendre2 F i).1 = i.+1 /\ size (@legendre2 F i).2 = i.+2.
  Proof.
    elim: i => [| i [IH1 IH2]] /=; first by rewrite size_poly1 size_polyX.
    case E: (legendre2 F i) => [p q]; rewrite E /= in IH1 IH2 *. split=> //.
    rewrite size_scale; last by rewrite invr_eq0 pnatr_eq0.
    have S1 : size ((2 * i + 3)%:R *: ('X * q)) = i.+3.
    { rewrite size_scale; last by rewrite pnatr_eq0 addn_eq0 andbF. rewrite mulrC size_mulX ?IH2 //. by rewrite -size_poly_eq0 IH2. }
    rewrite size_addl ?S1 // size_opp size_scale ?pnatr_eq0 // IH1. by rewrite ltnS leqnSn.
  Qed.
  Lemma size_basis s i : size (basis F s i) = i.+1.
  Proof. by case: s => /=; [case: (size_legendre2 i) | rewrite size_polyXn]. Qed.

  Lemma size_combo s n (u : nat -> F) : (size (\sum_(i < n) u i *: basis F s i)%R <= n)%N.
  Proof.
    elim: n => [| n IH]; first by rewrite big_ord0 size_poly0. rewrite big_ord_recr /=. apply: leq_trans (size_add _ _) _. rewrite geq_max. apply/andP; split; first exact: leq_trans IH (leqnSn n).
    apply: leq_trans (size_scale_leq _ _) _. by rewrite size_basis.
  Qed.
  Lemma combo_free s n (u : nat -> F) : \sum_(i < n) u i *: basis F s i = 0 -> forall i, (i < n)%N -> u i = 0.
  Proof.
    elim: n => [| n IH]; first by []. rewrite big_ord_recr /=. case: (eqVneq (u n) 0) => [U0 | UN].
    - rewrite U0 scale0r addr0 => H i. rewrite ltnS leq_eqVlt => /orP [/eqP -> // | L]. exact: IH.
    - move=> H. exfalso. have: size (\sum_(i < n) u i *: basis F s i + u n *: basis F s n) = n.+1.
      { rewrite addrC size_addl; last by rewrite size_scale // size_basis ltnS size_combo. by rewrite size_scale // size_basis. }
      by rewrite H size_poly0.
  Qed.

  (** A polynomial with more distinct zeros than its degree is zero. *)
  Lemma zeros p n (roots : 'I_n -> F) : injective roots -> (size p <= n)%N -> (forall j, p.[roots j] = 0) -> p = 0.
  Proof.
    move=> I S Z. apply/eqP. apply: contraTT S => N. rewrite -ltnNge.
    have := @max_poly_roots _ p [seq roots j | j <- enum 'I_n] N. rewrite size_map size_enum_ord. apply.
    - apply/allP => y /mapP [j _ ->]. by rewrite /root Z.
    - by rewrite map_inj_uniq ?enum_uniq.
  Qed.

  Section Order.
    Variables (s : series) (n : nat) (roots : 'I_n -> F).
    Notation V := (vdm s roots).

    (** The matrix is invertible exactly when the nodes are distinct; otherwise both functions raise. *)
    Lemma vdm_unit : injective roots -> V \in unitmx.
    Proof.
      move=> I. rewrite -row_free_unit -kermx_eq0. apply/rowV0P => u /sub_kermxP H.
      pose c (i : nat) : F := if insub i is Some k then u ord0 k else 0.
      have C (k : 'I_n) : c k = u ord0 k by rewrite /c valK.
      have Z : \sum_(i < n) c i *: basis F s i = 0.
      { apply: (zeros I); first exact: size_combo. move=> j. rewrite horner_sum. have := congr1 (fun m : 'rV_n => m ord0 j) H. rewrite !mxE => E. rewrite -[RHS]E. apply: eq_bigr => i _. by rewrite hornerZ C !mxE. }
      apply/rowP => k. rewrite mxE -C. exact: (combo_free Z).
    Qed.
    Theorem C54_distinct : (injective roots <-> (forall x, interp_weights s roots x <> None)) /\ (injective roots <-> (forall x, diff_weights s roots x <> None)).
    Proof.
      have U : V \in unitmx -> injective roots.
      { move=> U j k E. apply/eqP. apply: contraTT U => NE. rewrite unitmxE unitfE negbK.
        have := @determinant_alternate _ _ (V^T) j k NE. rewrite det_tr => ->; first by []. move=> i. by rewrite !mxE E. }
      have W : injective roots <-> V \in unitmx by split; [exact: vdm_unit | exact: U].
      rewrite /interp_weights /diff_weights /invvdm. move: W. case: (V \in unitmx) => W.
      - have I : injective roots by apply/W. by split; split.
      - by split; split=> [/W // | /(_ 0)].
    Qed.

    (** ** Exactness *)
    Section Exact.
      Hypothesis inj : injective roots.

      (** Weights obtained from the values of linear functionals on the basis. *)
      Lemma exact (phi : {poly F} -> F) (lin : forall (a : F) p q, phi (a *: p + q) = a * phi p + phi q) p : (size p <= n)%N ->
        \sum_j (invmx V *m \col_i phi (basis F s i)) j ord0 * p.[roots j] = phi p.
      Proof.
        move=> S. pose v : 'rV_n := \row_j p.[roots j]. pose u := v *m invmx V.
        pose c (i : nat) : F := if insub i is Some k then u ord0 k else 0.
        have C (k : 'I_n) : c k = u ord0 k by rewrite /c valK.
        have P0 : phi 0 = 0. { have := lin (-1) 0 0. by rewrite scaler0 add0r mulN1r addNr. }
        have E : \sum_(i < n) c i *: basis F s i = p.
        { apply/eqP. rewrite -subr_eq0. apply/eqP. apply: (zeros inj).
          - apply: leq_trans (size_add _ _) _. by rewrite size_opp geq_max size_combo S.
          - move=> j. rewrite hornerD hornerN horner_sum. apply/eqP. rewrite subr_eq0. apply/eqP.
            have -> : p.[roots j] = v ord0 j by rewrite mxE. have -> : v = u *m V by rewrite /u mulmxKV ?vdm_unit. rewrite mxE. apply: eq_bigr => i _. by rewrite hornerZ C !mxE. }
        have L : phi p = (u *m \col_i phi (basis F s i)) ord0 ord0.
        { rewrite -E mxE. have G m (m_n : (m <= n)%N) : phi (\sum_(i < m) c i *: basis F s i) = \sum_(i < m) c i * phi (basis F s i).
          { elim: m m_n => [| m IH] m_n; first by rewrite !big_ord0. rewrite !big_ord_recr /= addrC lin IH ?(ltnW m_n) //. by rewrite addrC. }
          rewrite G //. apply: eq_bigr => i _. by rewrite C !mxE. }
        rewrite L /u -mulmxA mxE. apply: eq_bigr => j _. by rewrite mulrC [v _ _]mxE.
      Qed.

      (** C54: both sets of weights exist, and are exact for every polynomial of degree < n, at every x. *)
      Theorem C54_interp x : exists w, interp_weights s roots x = Some w /\ forall p, (size p <= n)%N -> \sum_j w j * p.[roots j] = p.[x].
      Proof.
        rewrite /interp_weights /invvdm vdm_unit //. eexists; split; first reflexivity. move=> p S. apply: (@exact (fun p => p.[x])) => // a q r. by rewrite hornerD hornerZ.
      Qed.
      Theorem C54_diff x : exists w, diff_weights s roots x = Some w /\ forall p, (size p <= n)%N -> \sum_j w j * p.[roots j] = p^`().[x].
      Proof.
        rewrite /diff_weights /invvdm vdm_unit //. eexists; split; first reflexivity. move=> p S. apply: (@exact (fun p => p^`().[x])) => // a q r. by rewrite derivD derivZ hornerD hornerZ.
      Qed.
      (** The weights sum to 1, those of the derivative to 0. *)
      Theorem C54_sums x w w' : (0 < n)%N -> interp_weights s roots x = Some w -> diff_weights s roots x = Some w' -> \sum_j w j = 1 /\ \sum_j w' j = 0.
      Proof.
        move=> N W W'. have [v [V1 V2]] := C54_interp x. have [v' [V1' V2']] := C54_diff x. move: V1 V1'. rewrite W W' => - [E] - [E']. subst v v'. split.
        - have E1 := V2 1. rewrite size_poly1 hornerC in E1. rewrite -[RHS](E1 N). apply: eq_bigr => j _. by rewrite hornerC mulr1.
        - have E1 := V2' 1. rewrite size_poly1 derivC hornerC in E1. rewrite -[RHS](E1 N). apply: eq_bigr => j _. by rewrite hornerC mulr1.
      Qed.
      (** The interpolation weights are the Lagrange polynomials: they do not depend on the basis, and at a
          node only its own weight is not 0. *)
      Definition lagrange (j : 'I_n) x : F := \prod_(k < n | k != j) ((x - roots k) / (roots j - roots k)).
      Lemma lagrange_node j k : lagrange j (roots k) = (j == k)%:R.
      Proof.
        rewrite /lagrange. case: (eqVneq j k) => [-> | NE].
        - rewrite big1 // => i NI. rewrite divff // subr_eq0. apply: contra NI => /eqP E. by rewrite (inj E).
        - rewrite (bigD1 k) /=; last by rewrite eq_sym. by rewrite subrr mul0r mul0r.
      Qed.
      Definition lagpoly (j : 'I_n) : {poly F} := \prod_(k < n | k != j) ((roots j - roots k)^-1 *: ('X - (roots k)%:P)).
      Lemma lagpoly_eval j x : (lagpoly j).[x] = lagrange j x.
      Proof. rewrite /lagpoly horner_prod. apply: eq_bigr => k _. by rewrite hornerZ hornerXsubC mulrC. Qed.
      Lemma lagpoly_size j : (size (lagpoly j) <= n)%N.
      Proof.
        have N : (0 < n)%N by apply: leq_ltn_trans (ltn_ord j).
        have CN : #|[pred k : 'I_n | k != j]| = n.-1. { have := cardC1 j. rewrite card_ord => <-. by apply: eq_card => k; rewrite !inE. }
        apply: leq_trans (size_prod_leq _ _) _. rewrite leq_subLR.
        apply: (@leq_trans (\sum_(k < n | k != j) 2).+1).
        { rewrite ltnS. apply: leq_sum => k _. apply: leq_trans (size_scale_leq _ _) _. by rewrite size_XsubC. }
        rewrite sum_nat_const CN muln2 -addnn. have -> : (n.-1 + n = (n.-1 + n.-1).+1)%N by rewrite -[in LHS](prednK N) /= addnS. by [].
      Qed.
      Theorem C54_lagrange x w j : interp_weights s roots x = Some w -> w j = lagrange j x.
      Proof.
        move=> W. have [v [V1 V2]] := C54_interp x. move: V1. rewrite W => - [E]. subst v. rewrite -lagpoly_eval -(V2 _ (lagpoly_size j)).
        rewrite (bigD1 j) //= lagpoly_eval lagrange_node eqxx mulr1 big1 ?addr0 // => k NK. by rewrite lagpoly_eval lagrange_node eq_sym (negbTE NK) mulr0.
      Qed.
      Theorem C54_nodes k w j : interp_weights s roots (roots k) = Some w -> w j = (j == k)%:R.
      Proof. move=> W. by rewrite (C54_lagrange _ W) lagrange_node. Qed.
      Theorem C54_diff_lagrange x w j : diff_weights s roots x = Some w -> w j = (lagpoly j)^`().[x].
      Proof.
        move=> W. have [v [V1 V2]] := C54_diff x. move: V1. rewrite W => - [E]. subst v. rewrite -(V2 _ (lagpoly_size j)).
        rewrite (bigD1 j) //= lagpoly_eval lagrange_node eqxx mulr1 big1 ?addr0 // => k NK. by rewrite lagpoly_eval lagrange_node eq_sym (negbTE NK) mulr0.
      Qed.
    End Exact.
  End Order.
  (** The basis does not matter. *)
  Theorem C54_bases n (roots : 'I_n -> F) x j w1 w2 w1' w2' : injective roots ->
    interp_weights Legendre roots x = Some w1 -> interp_weights Monomial roots x = Some w2 ->
    diff_weights Legendre roots x = Some w1' -> diff_weights Monomial roots x = Some w2' -> w1 j = w2 j /\ w1' j = w2' j.
  Proof. move=> I W1 W2 W1' W2'. by rewrite (C54_lagrange I _ W1) (C54_lagrange I _ W2) (C54_diff_lagrange I _ W1') (C54_diff_lagrange I _ W2'). Qed.
End Poly.
Print Assumptions C54_distinct.
Print Assumptions C54_interp.
Print Assumptions C54_diff.
Print Assumptions C54_sums.
Print Assumptions C54_lagrange.
Print Assumptions C54_nodes.
Print Assumptions C54_diff_lagrange.
Print Assumptions C54_bases.

(** ** Concrete case: the nodes -1 and 1 over the rationals; the weights at 0 are 1/2 and 1/2. *)
Definition ex_roots (j : 'I_2) : rat := if val j == 0%N then -1 else 1.
Example c54_nodes : injective ex_roots.
Proof. by move=> [[| [| j]] Hj] [[| [| k]] Hk] //= E; apply: val_inj. Qed.
Example c54_weights : exists w, interp_weights Legendre ex_roots 0 = Some w /\ w ord0 = 2%:R^-1 /\ w ord_max = 2%:R^-1.
Proof.
  have [w [W _]] := @C54_interp _ Legendre _ _ c54_nodes 0. exists w. split=> //. rewrite !(C54_lagrange c54_nodes _ W).
  split; rewrite /lagrange big_mkcond !big_ord_recr big_ord0 /= /ex_roots /= ?mul1r ?mulr1 ?sub0r.
  - by rewrite -opprD invrN mulrNN mul1r.
  - by rewrite opprK.
Qed.
