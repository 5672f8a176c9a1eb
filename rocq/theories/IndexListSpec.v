(** * What an index set means, independently of its representation. *)
From Coq Require Import Sorted.
From Verif Require Import IndexList.

(** The integers an object stands for.  For a range they are characterised by order and
    membership, not by the function that lists them. *)
Inductive denotes : indexlist -> list Z -> Prop :=
| den_list l : denotes (ILlist l) l
| den_range lo hi l :
    StronglySorted Z.lt l -> (forall x, In x l <-> lo <= x <= hi) -> denotes (ILrange lo hi) l.

(** Consecutive increasing integers. *)
Definition consecutive (l : list Z) : Prop :=
  forall n a b, nth_error l n = Some a -> nth_error l (S n) = Some b -> b = a + 1.

Definition is_range (il : indexlist) : Prop := exists lo hi, il = ILrange lo hi.
