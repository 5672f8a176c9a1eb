(** * What averaging along a direction means, independently of the code. *)
From Coq Require Import Relations Permutation Sorted.
From Verif Require Import Py.

Section Spec.
  Context {S P D V : Type} (gap : S -> S -> bool) (zle : S -> S -> Prop).

  (** Two cells whose positions along the direction do not differ by more than the tolerance. *)
  Definition near (zpos : list S) (a b : Z) : Prop :=
    0 <= a /\ 0 <= b /\ exists za zb, nth_error zpos (Z.to_nat a) = Some za /\ nth_error zpos (Z.to_nat b) = Some zb /\ gap za zb = false.
  (** They are in the same plane if a chain of near cells joins them. *)
  Definition same_plane (zpos : list S) : Z -> Z -> Prop := clos_refl_sym_trans _ (near zpos).

  (** [pls] are the planes of the mesh, in order. *)
  Record are_planes (zpos : list S) (pls : list (list Z)) : Prop := {
    ap_all : Permutation (List.concat pls) (zrange 0 (zlen zpos));
    ap_some : Forall (fun p => p <> []) pls;
    ap_joined : forall p a b, In p pls -> In a p -> In b p -> same_plane zpos a b;
    ap_apart : forall i j p p' a b za zb, (i < j)%nat -> nth_error pls i = Some p -> nth_error pls j = Some p' ->
      In a p -> In b p' -> nth_error zpos (Z.to_nat a) = Some za -> nth_error zpos (Z.to_nat b) = Some zb -> zle za zb /\ gap za zb = true }.

  (** Cell [c] is at position [p]; the cells [r] and [c] are within the tolerance across the direction. *)
  Definition at_pos (xypos : list P) (c : Z) (p : P) : Prop := 0 <= c /\ nth_error xypos (Z.to_nat c) = Some p.
  Definition close_to (kdist : P -> P -> D) (dle : D -> D -> bool) (tol : D) (xypos : list P) (r c : Z) : Prop :=
    exists q p, at_pos xypos r q /\ at_pos xypos c p /\ dle (kdist q p) tol = true.

  (** The values of column [j] of the table of cells [ik]. *)
  Definition column_of (vals : list V) (ik : list (list Z)) (j : nat) (l : list V) : Prop :=
    Forall2 (fun row v => exists c, nth_error row j = Some c /\ 0 <= c /\ nth_error vals (Z.to_nat c) = Some v) ik l.
  (** [w] is [f] applied to each of the [n] columns. *)
  Definition per_column (f : list V -> V) (vals : list V) (ik : list (list Z)) (n : nat) (w : list V) : Prop :=
    List.length w = n /\ forall j, (j < n)%nat -> exists l, column_of vals ik j l /\ nth_error w j = Some (f l).
End Spec.

(** A function that sorts by [zle]. *)
Definition sorts {S} (zle : S -> S -> Prop) (argsort : list S -> list Z) : Prop :=
  forall zpos, Permutation (argsort zpos) (zrange 0 (zlen zpos)) /\
    forall zs, List.map (fun i => nth_error zpos (Z.to_nat i)) (argsort zpos) = List.map Some zs -> StronglySorted zle zs.
