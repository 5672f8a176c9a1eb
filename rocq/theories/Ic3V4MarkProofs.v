(** * Marks in the HDF5 files of IC3. *)
From Coq Require Import ZArith List Bool String Lia Permutation Sorted.
From Verif Require Import Py PyFacts Conn ConnSpec ConnProofs Mesh MeshSpec Ic3 Ic3FileSpec Ic3RoundSpec Ic3MeshProofs Ic3FileProps Ic3WriteProofs Ic3V4 Ic3V4Spec Ic3V4Proofs.

Lemma StronglySorted_map {A B} (f : A -> B) (R : B -> B -> Prop) l : StronglySorted (fun a b => R (f a) (f b)) l -> StronglySorted R (List.map f l).
Proof.
  induction 1 as [| a l S IH F]; [constructor |]. cbn. constructor; [exact IH |]. apply Forall_forall. intros y I. apply in_map_iff in I.
  destruct I as (x & <- & I). rewrite Forall_forall in F. auto.
Qed.
Lemma StronglySorted_impl {A} (R S : A -> A -> Prop) l : (forall a b, R a b -> S a b) -> StronglySorted R l -> StronglySorted S l.
Proof. intros H. induction 1 as [| a l SS IH F]; constructor; [exact IH |]. eapply Forall_impl; [| exact F]. auto. Qed.

(** ** Cutting *)
Section Cut.
  Context (nf : Z).
  Implicit Type L : list (Z * (Z -> mark Z)).

  Lemma cut_next L : StronglySorted (fun a b => fst a < fst b) L -> forall lo z, In (lo, z) L ->
    exists n, next_start (List.map fst L) nf lo n /\ In (z (n - 1)) (cut_zones nf L).
  Proof.
    induction 1 as [| (lo1, z1) L S IH F]; intros lo z I; [destruct I |]. destruct I as [I | I].
    - inversion I; subst. exists (match L with [] => nf | (lo', _) :: _ => lo' end). split; [| left; reflexivity].
      destruct L as [| (lo2, z2) L].
      + right. split; [| reflexivity]. intros x [<- | []]. cbn. lia.
      + left. apply Forall_cons_iff in F. destruct F as (F1 & F). cbn in F1. split; [right; left; reflexivity |]. split; [exact F1 |].
        intros x X LT. cbn [List.map fst] in X. destruct X as [<- | [<- | X]]; [lia | lia |]. apply in_map_iff in X. destruct X as (p & <- & X).
        apply StronglySorted_inv in S. destruct S as (_ & S). rewrite Forall_forall in S. apply S in X. cbn in X. lia.
    - destruct (IH lo z I) as (n & N & C). exists n. split; [| right; exact C]. rewrite Forall_forall in F. assert (Q := F _ I). cbn in Q.
      destruct N as [(N1 & N2 & N3) | (N1 & N2)]; [left | right].
      + split; [right; exact N1 |]. split; [exact N2 |]. intros x [<- | X] LT; [cbn in *; lia | auto].
      + split; [| exact N2]. intros x [<- | X]; [cbn; lia | auto].
  Qed.
  Lemma cut_in L x : In x (cut_zones nf L) -> exists lo z hi, In (lo, z) L /\ x = z hi.
  Proof.
    induction L as [| (lo, z) L IH]; [intros [] |]. intros [<- | I]; [exists lo, z; eexists; split; [left; reflexivity | reflexivity] |].
    destruct (IH I) as (a & b & c & J & E). exists a, b, c. split; [right; exact J | exact E].
  Qed.
  (** Of two zones with the same start, one is left without faces. *)
  Lemma cut_same L A B C lo z1 z2 : StronglySorted (fun a b => fst a <= fst b) L -> L = A ++ (lo, z1) :: B ++ (lo, z2) :: C ->
    In (z1 (lo - 1)) (cut_zones nf L).
  Proof.
    intros S ->. revert S. induction A as [| (lo0, z0) A IH]; intros S.
    - cbn [app cut_zones]. left. destruct B as [| (lo2, z3) B]; [reflexivity |]. cbn [app]. f_equal. f_equal.
      cbn [app] in S. apply StronglySorted_inv in S. destruct S as (S & F). apply Forall_cons_iff in F. destruct F as (F1 & _). cbn in F1.
      apply StronglySorted_inv in S. destruct S as (_ & F). rewrite Forall_forall in F.
      assert (Q : In (lo, z2) (B ++ (lo, z2) :: C)) by (apply in_or_app; right; left; reflexivity). apply F in Q. cbn in Q. lia.
    - cbn [app cut_zones]. right. apply IH. apply StronglySorted_inv in S. apply S.
  Qed.
End Cut.

Lemma next_unique l nf lo n n' : next_start l nf lo n -> next_start l nf lo n' -> n = n'.
Proof.
  intros [(A1 & A2 & A3) | (A1 & A2)] [(B1 & B2 & B3) | (B1 & B2)].
  - specialize (A3 n' B1 B2). specialize (B3 n A1 A2). lia.
  - specialize (B1 n A1). lia.
  - specialize (A1 n' B1). lia.
  - lia.
Qed.
Lemma next_ext l l' nf lo n : (forall x, In x l <-> In x l') -> next_start l nf lo n -> next_start l' nf lo n.
Proof.
  intros E [(A1 & A2 & A3) | (A1 & A2)]; [left | right].
  - split; [apply E; exact A1 |]. split; [exact A2 |]. intros x X. apply A3. apply E. exact X.
  - split; [| exact A2]. intros x X. apply A1. apply E. exact X.
Qed.

Lemma strict L : NoDup (List.map fst L) -> StronglySorted (fun a b : Z * (Z -> mark Z) => fst a <= fst b) L -> StronglySorted (fun a b => fst a < fst b) L.
Proof.
  intros N S. induction S as [| (lo, z) L S IH F]; [constructor |]. cbn [List.map fst] in N. apply NoDup_cons_iff in N. destruct N as (N1 & N).
  constructor; [apply IH; exact N |]. apply Forall_forall. intros (lo', z') I. rewrite Forall_forall in F. assert (Q := F _ I). cbn in *.
  assert (lo <> lo'); [| lia]. intros ->. apply N1. apply in_map_iff. exists (lo', z'). auto.
Qed.

Lemma firsts_open m : List.map fst (open_zones m) = firsts m.
Proof. unfold open_zones, firsts. rewrite map_app, map_map. f_equal. apply map_ext. intros (k, b). reflexivity. Qed.
Lemma in_open m lo z : In (lo, z) (open_zones m) -> (exists k b, In (k, b) (zone_marks m) /\ lo = zone_first b /\ z = mark_on k b lo) \/
  (lo = marks_end m + 1 /\ z = internal_on lo).
Proof.
  unfold open_zones. intros I. apply in_app_or in I. destruct I as [I | [I | []]].
  - left. apply in_map_iff in I. destruct I as ((k, b) & E & I). inversion E; subst. exists k, b. auto.
  - right. inversion I; subst. auto.
Qed.
Lemma open_name lo z m hi : In (lo, z) (open_zones m) -> mk_name (z hi) = mk_name (z 0).
Proof. intros I. apply in_open in I. destruct I as [(k & b & _ & _ & ->) | (_ & ->)]; reflexivity. Qed.
Lemma cut_names_open nf m L : (forall p, In p L -> In p (open_zones m)) -> List.map mk_name (cut_zones nf L) = List.map (fun p => mk_name (snd p 0)) L.
Proof.
  induction L as [| (lo, z) L IH]; intros H; [reflexivity |]. cbn [cut_zones List.map snd]. f_equal.
  - eapply open_name. apply H. left. reflexivity.
  - apply IH. intros p I. apply H. right. exact I.
Qed.
Lemma open_names m : List.map (fun p => mk_name (snd p 0)) (open_zones m) = List.map fst (zone_marks m) ++ ["internal-domain"%string].
Proof. unfold open_zones. rewrite map_app, map_map. f_equal. apply map_ext. intros (k, b). reflexivity. Qed.

(** ** Tilings *)
Lemma flat_same {A B} (f : A -> list B) l : NoDup (flat_map f l) -> forall a b x, In a l -> In b l -> In x (f a) -> In x (f b) -> a = b.
Proof.
  induction l as [| c l IH]; [intros _ a b x [] |]. intros N a b x I J X Y. cbn [flat_map] in N. apply NoDup_app in N. destruct N as (N1 & N2 & N3).
  destruct I as [<- | I], J as [<- | J]; [reflexivity | | | eapply IH; eassumption].
  - exfalso. apply (N3 x X). apply in_flat_map. eauto.
  - exfalso. apply (N3 x Y). apply in_flat_map. eauto.
Qed.
Definition faces_of_mark (kb : string * mark Z) : list Z := match mk_index (snd kb) with Some il => entries il | None => [] end.
Lemma mark_faces_flat zs : mark_faces zs = flat_map faces_of_mark zs.
Proof. unfold mark_faces. apply flat_map_ext. intros (k, b). reflexivity. Qed.
Lemma faces_range k b lo hi x : mk_index b = Some (ILrange lo hi) -> In x (faces_of_mark (k, b)) <-> lo <= x <= hi.
Proof. intros E. unfold faces_of_mark. cbn [snd]. rewrite E. cbn [entries]. rewrite in_zrange. lia. Qed.

Section Tiles.
  Context (m : mesh Z) (nb : Z).
  Let zs := zone_marks m.
  Hypothesis RG : mark_ranges zs.
  Hypothesis TL : Permutation (mark_faces zs) (zrange 0 nb).
  Hypothesis NB : 1 <= nb.
  Hypothesis NK : NoDup (List.map fst zs).

  Lemma range_of k b : In (k, b) zs -> exists lo hi, mk_index b = Some (ILrange lo hi) /\ lo <= hi.
  Proof. intros I. unfold mark_ranges in RG. rewrite Forall_forall in RG. exact (RG _ I). Qed.
  Lemma same_mark p q x : In p zs -> In q zs -> In x (faces_of_mark p) -> In x (faces_of_mark q) -> p = q.
  Proof.
    intros I J X Y. eapply (flat_same faces_of_mark zs); try eassumption. rewrite <- mark_faces_flat.
    eapply Permutation_NoDup; [symmetry; exact TL |]. apply NoDup_zrange.
  Qed.
  Lemma tile_bound k b x : In (k, b) zs -> In x (faces_of_mark (k, b)) -> 0 <= x < nb.
  Proof.
    intros I X. apply in_zrange. eapply Permutation_in; [exact TL |]. rewrite mark_faces_flat. apply in_flat_map. eauto.
  Qed.
  Lemma tile_firsts : NoDup (firsts m).
  Proof.
    unfold firsts. fold zs. apply NoDup_app. split; [| split; [repeat constructor; intros [] |]].
    - assert (ND : NoDup zs) by (eapply NoDup_map_inv; exact NK).
      assert (H : forall l, (forall p, In p l -> In p zs) -> NoDup l -> NoDup (List.map (fun kb => zone_first (snd kb)) l)).
      { induction l as [| (k, b) l IH]; intros SUB N; [constructor |]. cbn [List.map]. apply NoDup_cons_iff in N. destruct N as (N1 & N).
        constructor; [| apply IH; [intros p I; apply SUB; right; exact I | exact N]]. intros I. apply in_map_iff in I. destruct I as ((k', b') & E & I).
        apply N1. replace (k, b) with (k', b'); [exact I |]. cbn [snd] in E.
        destruct (range_of k b (SUB _ (or_introl eq_refl))) as (lo & hi & IX & LH). destruct (range_of k' b' (SUB _ (or_intror I))) as (lo' & hi' & IX' & LH').
        unfold zone_first in E. rewrite IX, IX' in E. subst lo'.
        apply (same_mark _ _ lo); [apply SUB; right; exact I | apply SUB; left; reflexivity | |]; eapply faces_range; try eassumption; lia. }
      apply H; [auto | exact ND].
    - intros x I [<- | []]. apply in_map_iff in I. destruct I as ((k, b) & E & I). cbn [snd] in E. destruct (range_of k b I) as (lo & hi & IX & LH).
      unfold zone_first in E. rewrite IX in E. rewrite (marks_end_is m zs nb eq_refl RG TL NB) in E.
      assert (Q := tile_bound k b lo I (proj2 (faces_range k b lo hi lo IX) ltac:(lia))). lia.
  Qed.
  Lemma tile_next nf k b lo hi : In (k, b) zs -> mk_index b = Some (ILrange lo hi) -> next_start (firsts m) nf lo (hi + 1).
  Proof.
    intros I IX. assert (ME := marks_end_is m zs nb eq_refl RG TL NB).
    assert (LH : lo <= hi). { destruct (range_of k b I) as (lo' & hi' & IX' & LH). rewrite IX in IX'. inversion IX'; subst. exact LH. }
    assert (B := tile_bound k b hi I (proj2 (faces_range k b lo hi hi IX) ltac:(lia))).
    left. split; [| split; [lia |]].
    - unfold firsts. fold zs. apply in_or_app. rewrite ME. destruct (Z.eq_dec (hi + 1) nb) as [E | NE]; [right; left; lia |]. left.
      assert (Q : In (hi + 1) (mark_faces zs)). { eapply Permutation_in; [symmetry; exact TL |]. apply in_zrange. lia. }
      rewrite mark_faces_flat in Q. apply in_flat_map in Q. destruct Q as ((k', b') & I' & Q). destruct (range_of k' b' I') as (lo' & hi' & IX' & LH').
      rewrite (faces_range k' b' lo' hi' _ IX') in Q. apply in_map_iff. exists (k', b'). split; [| exact I']. cbn [snd]. unfold zone_first. rewrite IX'.
      destruct (Z.eq_dec lo' (hi + 1)) as [| NE']; [assumption |]. exfalso.
      assert (E : (k', b') = (k, b)). { apply (same_mark _ _ hi I' I); eapply faces_range; try eassumption; lia. }
      inversion E; subst. rewrite IX in IX'. inversion IX'; subst. lia.
    - intros x X LT. unfold firsts in X. fold zs in X. apply in_app_or in X. destruct X as [X | [X | []]]; [| lia].
      apply in_map_iff in X. destruct X as ((k', b') & E & I'). cbn [snd] in E. destruct (range_of k' b' I') as (lo' & hi' & IX' & LH').
      unfold zone_first in E. rewrite IX' in E. subst lo'. destruct (Z.le_gt_cases (hi + 1) x) as [| GT]; [assumption |]. exfalso.
      assert (E : (k', b') = (k, b)). { apply (same_mark _ _ x I' I); eapply faces_range; try eassumption; lia. }
      inversion E; subst. rewrite IX in IX'. inversion IX'; subst. lia.
  Qed.
End Tiles.

Lemma end_bound m k b lo hi : In (k, b) (zone_marks m) -> mk_index b = Some (ILrange lo hi) -> hi <= marks_end m.
Proof.
  unfold marks_end. induction (zone_marks m) as [| (k', b') l IH]; [intros [] |]. intros I E. cbn [flat_map].
  destruct I as [I | I].
  - inversion I; subst. rewrite E. cbn [app fold_right]. lia.
  - specialize (IH I E). destruct (mk_index b') as [[] |]; cbn [app fold_right]; try exact IH. lia.
Qed.
