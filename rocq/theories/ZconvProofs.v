From Coq Require Import Relations Permutation Sorted Lia.
From Verif Require Import Py PyFacts GroupFacts Mesh Vtk VtkSpec VtkProofs VtkList VtkListProps Zconv ZconvSpec.

(** ** [np.split] at the gaps *)
Section Split.
  Context {A : Type}.
  Fixpoint grp (cur : list A) (rest : list A) (bs : list bool) : list (list A) :=
    match rest, bs with
    | a :: r, b :: bs' => if b then cur :: grp [a] r bs' else grp (cur ++ [a]) r bs'
    | _, _ => [cur]
    end.
  Lemma split_grp : forall rest bs pre cur, List.length bs = List.length rest ->
    split_from (pre ++ cur ++ rest) (zlen pre) (where_from (zlen pre + zlen cur) bs) = grp cur rest bs.
  Proof.
    induction rest as [|a rest IH]; intros bs pre cur Hl.
    - destruct bs; [|discriminate]. cbn [where_from split_from grp]. rewrite !zlen_app. change (zlen (@nil A)) with 0. rewrite Z.add_0_r, py_slice_mid. reflexivity.
    - destruct bs as [|b bs]; [discriminate|]. cbn in Hl. cbn [where_from grp]. destruct b.
      + cbn [app split_from]. rewrite py_slice_mid. f_equal.
        specialize (IH bs (pre ++ cur) [a] ltac:(lia)). rewrite <- !app_assoc in IH. rewrite zlen_app in IH. exact IH.
      + cbn [app]. specialize (IH bs pre (cur ++ [a]) ltac:(lia)). rewrite <- !app_assoc in IH. cbn [app] in IH. rewrite zlen_app in IH. change (zlen [a]) with 1 in IH. rewrite Z.add_assoc in IH. exact IH.
  Qed.
  Lemma where_shift bs : forall k, List.map (fun i => i + 1) (where_from k bs) = where_from (k + 1) bs.
  Proof. induction bs as [|b bs IH]; intros k; [reflexivity|]. cbn [where_from]. rewrite map_app, IH. destruct b; reflexivity. Qed.
  Lemma grp_concat : forall rest bs cur, List.length bs = List.length rest -> List.concat (grp cur rest bs) = cur ++ rest.
  Proof.
    induction rest as [|a rest IH]; intros [|b bs] cur Hl; try discriminate; [cbn; rewrite app_nil_r; reflexivity|]. cbn in Hl. cbn [grp]. destruct b.
    - cbn [List.concat]. rewrite IH by lia. reflexivity.
    - rewrite IH by lia. rewrite <- app_assoc. reflexivity.
  Qed.
  Lemma grp_length : forall rest bs cur, List.length bs = List.length rest -> zlen (grp cur rest bs) = zlen (where_from 0 bs) + 1.
  Proof.
    assert (Hk : forall bs k k', zlen (where_from k bs) = zlen (where_from k' bs)).
    { induction bs as [|b bs IH]; intros k k'; [reflexivity|]. cbn [where_from]. rewrite !zlen_app. rewrite (IH _ (k' + 1)). destruct b; reflexivity. }
    induction rest as [|a rest IH]; intros [|b bs] cur Hl; try discriminate; [reflexivity|]. cbn in Hl. cbn [grp where_from]. rewrite zlen_app, (Hk bs _ 0). destruct b.
    - rewrite zlen_cons, IH by lia. change (zlen [0]) with 1. lia.
    - rewrite IH by lia. change (zlen (@nil Z)) with 0. lia.
  Qed.
  Lemma grp_nonempty : forall rest bs cur, cur <> [] -> Forall (fun c => c <> []) (grp cur rest bs).
  Proof.
    induction rest as [|a rest IH]; intros [|b bs] cur Hc; cbn [grp]; try (constructor; [exact Hc|constructor]). destruct b.
    - constructor; [exact Hc|]. apply IH. discriminate.
    - apply IH. destruct cur; discriminate.
  Qed.
End Split.

Section Planes.
  Context {S : Type} (gap : S -> S -> bool) (zle : S -> S -> Prop).
  Hypothesis gap_mono : forall a b c d, zle a b -> zle b c -> zle c d -> gap b c = true -> gap a d = true.
  Hypothesis zle_refl : forall a, zle a a.
  Hypothesis zle_trans : forall a b c, zle a b -> zle b c -> zle a c.

  Lemma gaps_length (a : S) r : List.length (gaps gap (a :: r)) = List.length r.
  Proof. revert a. induction r as [|b r IH]; intros a; [reflexivity|]. change (gaps gap (a :: b :: r)) with (gap a b :: gaps gap (b :: r)). cbn [List.length]. rewrite IH. reflexivity. Qed.

  Variable zpos : list S.
  Definition zat (c : Z) (z : S) : Prop := 0 <= c /\ nth_error zpos (Z.to_nat c) = Some z.
  Lemma zat_fun c z z' : zat c z -> zat c z' -> z = z'.
  Proof. intros [_ H] [_ H']. congruence. Qed.

  (** Chains of cells. *)
  Lemma grp_joined : forall rest zrest a za cur, Forall2 zat rest zrest -> zat a za ->
    (forall x y, In x (cur ++ [a]) -> In y (cur ++ [a]) -> same_plane gap zpos x y) ->
    forall p x y, In p (grp (cur ++ [a]) rest (gaps gap (za :: zrest))) -> In x p -> In y p -> same_plane gap zpos x y.
  Proof.
    induction rest as [|b rest IH]; intros zrest a za cur H2 Ha Hcur p x y Hp Hx Hy.
    - inversion H2; subst. destruct Hp as [<-|[]]. apply Hcur; assumption.
    - inversion H2 as [|? zb ? zrest' Hb H2']; subst. change (gaps gap (za :: zb :: zrest')) with (gap za zb :: gaps gap (zb :: zrest')) in Hp. cbn [grp] in Hp.
      destruct (gap za zb) eqn:E.
      + destruct Hp as [<-|Hp]; [apply Hcur; assumption|]. apply (IH zrest' b zb [] H2' Hb) with (p := p); try assumption.
        intros u w [<-|[]] [<-|[]]. apply rst_refl.
      + apply (IH zrest' b zb (cur ++ [a]) H2' Hb) with (p := p); try assumption.
        assert (Hab : same_plane gap zpos a b). { apply rst_step. destruct Ha as [Ha0 Ha], Hb as [Hb0 Hb]. split; [exact Ha0|]. split; [exact Hb0|]. exists za, zb. auto. }
        assert (Hto : forall u, In u ((cur ++ [a]) ++ [b]) -> same_plane gap zpos u a).
        { intros u Hu. apply in_app_or in Hu. destruct Hu as [Hu|[<-|[]]]; [|apply rst_sym; exact Hab]. apply Hcur; [exact Hu|]. apply in_or_app. right. left. reflexivity. }
        intros u w Hu Hw. apply rst_trans with a; [apply Hto; exact Hu|apply rst_sym, Hto; exact Hw].
  Qed.

  (** Cells of different planes. *)
  Lemma grp_apart : forall rest zrest a za cur zcur, Forall2 zat rest zrest -> zat a za -> Forall2 zat cur zcur -> StronglySorted zle (zcur ++ za :: zrest) ->
    forall i j p p' x y zx zy, (i < j)%nat -> let g := grp (cur ++ [a]) rest (gaps gap (za :: zrest)) in
      nth_error g i = Some p -> nth_error g j = Some p' -> In x p -> In y p' -> zat x zx -> zat y zy -> zle zx zy /\ gap zx zy = true.
  Proof.
    induction rest as [|b rest IH]; intros zrest a za cur zcur H2 Ha Hc Hs i j p p' x y zx zy Hij g Hi Hj Hx Hy Hzx Hzy.
    - inversion H2; subst. subst g. cbn in Hj. destruct j as [|[|j]]; [lia|discriminate|discriminate].
    - inversion H2 as [|? zb ? zrest' Hb H2']; subst. subst g. change (gaps gap (za :: zb :: zrest')) with (gap za zb :: gaps gap (zb :: zrest')) in *. cbn [grp] in Hi, Hj.
      destruct (gap za zb) eqn:E.
      + destruct j as [|j]; [lia|]. cbn [nth_error] in Hj. destruct i as [|i].
        * cbn [nth_error] in Hi. injection Hi as <-.
          assert (Hyr : In y (b :: rest)).
          { assert (Hin : In y (List.concat (grp [b] rest (gaps gap (zb :: zrest'))))). { apply in_concat. exists p'. split; [apply nth_error_In in Hj; exact Hj|exact Hy]. }
            rewrite grp_concat in Hin; [exact Hin|]. rewrite gaps_length. symmetry. eapply Forall2_length'. exact H2'. }
          assert (Hxa : zle zx za).
          { apply in_app_or in Hx. destruct Hx as [Hx|[<-|[]]].
            - apply In_nth_error in Hx. destruct Hx as (k & Hk). destruct (VtkProofs.Forall2_nth _ _ _ _ _ Hc Hk) as (z & Hz & Hzz).
              rewrite (zat_fun _ _ _ Hzx Hzz). clear -Hs Hz. revert k Hz. induction zcur as [|u zcur IHz]; intros [|k] Hz; try discriminate.
              + injection Hz as ->. cbn in Hs. apply StronglySorted_inv in Hs. destruct Hs as [_ Hs]. rewrite Forall_forall in Hs. apply Hs. apply in_or_app. right. left. reflexivity.
              + cbn in Hs. apply StronglySorted_inv in Hs. apply (IHz (proj1 Hs) k Hz).
            - rewrite (zat_fun _ _ _ Hzx Ha). apply zle_refl. }
          assert (Hab : zle za zb).
          { clear -Hs. induction zcur as [|u zcur IHz]; [|cbn in Hs; apply StronglySorted_inv in Hs; apply IHz, Hs]. cbn in Hs. apply StronglySorted_inv in Hs. destruct Hs as [_ Hs]. rewrite Forall_forall in Hs. apply Hs. left. reflexivity. }
          assert (Hby : zle zb zy).
          { destruct Hyr as [<-|Hyr]; [rewrite (zat_fun _ _ _ Hzy Hb); apply zle_refl|]. apply In_nth_error in Hyr. destruct Hyr as (k & Hk). destruct (VtkProofs.Forall2_nth _ _ _ _ _ H2' Hk) as (z & Hz & Hzz).
            rewrite (zat_fun _ _ _ Hzy Hzz). apply nth_error_In in Hz. clear -Hs Hz. induction zcur as [|u zcur IHz]; [|cbn in Hs; apply StronglySorted_inv in Hs; apply IHz, Hs].
            cbn in Hs. apply StronglySorted_inv in Hs. destruct Hs as [Hs _]. apply StronglySorted_inv in Hs. destruct Hs as [_ Hs]. rewrite Forall_forall in Hs. apply Hs. exact Hz. }
          split; [apply (zle_trans _ za); [exact Hxa|]; apply (zle_trans _ zb); assumption|]. apply (gap_mono zx za zb zy); assumption.
        * cbn [nth_error] in Hi. apply (IH zrest' b zb [] [] H2' Hb) with (i := i) (j := j) (p := p) (p' := p') (x := x) (y := y); try assumption; [constructor| |lia].
          clear -Hs. induction zcur as [|u zcur IHz]; cbn in Hs; apply StronglySorted_inv in Hs; [apply Hs|apply IHz, Hs].
      + apply (IH zrest' b zb (cur ++ [a]) (zcur ++ [za]) H2' Hb) with (i := i) (j := j) (p := p) (p' := p') (x := x) (y := y); try assumption.
        * apply Forall2_app; [exact Hc|]. constructor; [exact Ha|constructor].
        * rewrite <- app_assoc. exact Hs.
  Qed.

  Variable argsort : list S -> list Z.
  Variable uneven : list (list S) -> bool.
  Hypothesis Hsort : sorts zle argsort.

  Lemma isort_zat : exists zs, np_take zpos (argsort zpos) = Ok zs /\ Forall2 zat (argsort zpos) zs /\ StronglySorted zle zs.
  Proof.
    destruct (Hsort zpos) as [Hp Hs]. set (is := argsort zpos) in *.
    assert (Hb : forall i, In i is -> 0 <= i < zlen zpos). { intros i Hi. rewrite Hp in Hi. apply in_zrange in Hi. exact Hi. }
    assert (H : forall l, (forall i, In i l -> 0 <= i < zlen zpos) -> exists zs, np_take zpos l = Ok zs /\ Forall2 zat l zs /\ List.map (fun i => nth_error zpos (Z.to_nat i)) l = List.map Some zs).
    { clear. induction l as [|i l IH]; intros Hb; [exists []; repeat split; constructor|]. destruct IH as (zs & E & H2 & Hm); [intros j Hj; apply Hb; right; exact Hj|].
      pose proof (Hb i (or_introl eq_refl)) as Hi. destruct (nth_error zpos (Z.to_nat i)) as [z|] eqn:Ez.
      - exists (z :: zs). unfold np_take in *. cbn [mapM]. rewrite (py_get_nth _ _ _ (proj1 Hi) Ez). cbn [bind]. rewrite E. cbn [bind]. split; [reflexivity|]. split; [constructor; [split; [lia|exact Ez]|exact H2]|].
        cbn [List.map]. rewrite Ez, Hm. reflexivity.
      - apply nth_error_None in Ez. unfold zlen in Hi. lia. }
    destruct (H is Hb) as (zs & E & H2 & Hm). exists zs. split; [exact E|]. split; [exact H2|]. apply Hs. exact Hm.
  Qed.

  Lemma planes_run : zpos <> [] -> exists g, are_planes gap zle zpos g /\
    (forall pls, planes gap argsort uneven zpos = Ok pls ->
       pls = g /\ (2 <= List.length g)%nat /\ (forall p q, In p g -> In q g -> List.length p = List.length q)) /\
    ((2 <= List.length g)%nat -> (forall p q, In p g -> In q g -> List.length p = List.length q) ->
       (forall zp, Forall2 (Forall2 zat) g zp -> uneven zp = false) -> planes gap argsort uneven zpos = Ok g) /\
    (planes gap argsort uneven zpos = Ok g \/ planes gap argsort uneven zpos = Err ValueError).
  Proof.
    intros Hne. destruct isort_zat as (zs & Ez & H2 & Hs). destruct (Hsort zpos) as [Hp _]. unfold planes. rewrite Ez. cbn [bind].
    destruct (argsort zpos) as [|a rest] eqn:Ei.
    - exfalso. apply Hne. apply Permutation_nil in Hp. destruct zpos as [|z l]; [reflexivity|]. assert (In 0 (zrange 0 (zlen (z :: l)))) as H0 by (apply in_zrange; rewrite zlen_cons; pose proof (zlen_nonneg l); lia).
      rewrite Hp in H0. destruct H0.
    - inversion H2 as [|? za ? zrest Ha Hrest]; subst. rewrite where_shift. change (0 + 1) with (zlen (@nil Z) + zlen [a]).
      pose proof (gaps_length za zrest) as Hgl. rewrite <- (Forall2_length' _ _ _ Hrest) in Hgl.
      pose proof (split_grp rest (gaps gap (za :: zrest)) [] [a] Hgl) as Hsp. cbn [app] in Hsp. change (zlen (@nil Z)) with 0 in *. rewrite Hsp. clear Hsp.
      set (g := grp [a] rest (gaps gap (za :: zrest))) in *. exists g.
      assert (Hg : are_planes gap zle zpos g).
      { split.
        - unfold g. rewrite grp_concat by exact Hgl. exact Hp.
        - apply grp_nonempty. discriminate.
        - intros p x y Hin Hx Hy. apply (grp_joined rest zrest a za [] Hrest Ha) with (p := p); try assumption. intros u w [<-|[]] [<-|[]]. apply rst_refl.
        - intros i j p p' x y zx zy Hij Hi Hj Hx Hy Hzx Hzy.
          assert (Hpos : forall k p c, nth_error g k = Some p -> In c p -> 0 <= c).
          { intros k q c Hk Hc. assert (In c (List.concat g)) as Hin. { apply in_concat. exists q. split; [apply nth_error_In in Hk; exact Hk|exact Hc]. }
            unfold g in Hin. rewrite grp_concat in Hin by exact Hgl. apply (Permutation_in _ Hp) in Hin. apply in_zrange in Hin. lia. }
          apply (grp_apart rest zrest a za [] [] Hrest Ha) with (i := i) (j := j) (p := p) (p' := p') (x := x) (y := y); try assumption; [constructor|split; [apply (Hpos i p x Hi Hx)|exact Hzx]|split; [apply (Hpos j p' y Hj Hy)|exact Hzy]]. }
      split; [exact Hg|].
      assert (Hlg : zlen g = zlen (where_from (0 + zlen [a]) (gaps gap (za :: zrest))) + 1).
      { pose proof (grp_length rest (gaps gap (za :: zrest)) [a] Hgl) as Hl. fold g in Hl.
        assert (Hk : forall bs k k', zlen (where_from k bs) = zlen (where_from k' bs)).
        { induction bs as [|b bs IH]; intros k k'; [reflexivity|]. cbn [where_from]. rewrite !zlen_app. rewrite (IH _ (k' + 1)). destruct b; reflexivity. }
        rewrite (Hk _ 0 (0 + zlen [a])) in Hl. exact Hl. }
      rewrite <- Hlg. clearbody g. clear Hlg Hgl.
        assert (Hin : forall p c, In p g -> In c p -> 0 <= c < zlen zpos).
        { intros p c Hp' Hc. apply in_zrange. rewrite <- (ap_all _ _ _ _ Hg). apply in_concat. exists p. auto. }
        assert (Hzp : exists zp, mapM (np_take zpos) g = Ok zp /\ Forall2 (Forall2 zat) g zp).
        { assert (Hone : forall l, (forall i, In i l -> 0 <= i < zlen zpos) -> exists zs, np_take zpos l = Ok zs /\ Forall2 zat l zs).
          { clear. induction l as [|i l IH]; intros Hb; [exists []; repeat split; constructor|]. destruct IH as (zs & E & H2); [intros j Hj; apply Hb; right; exact Hj|].
            pose proof (Hb i (or_introl eq_refl)) as Hi. destruct (nth_error zpos (Z.to_nat i)) as [z|] eqn:Ez.
            - exists (z :: zs). unfold np_take in *. cbn [mapM]. rewrite (py_get_nth _ _ _ (proj1 Hi) Ez). cbn [bind]. rewrite E. cbn [bind]. split; [reflexivity|]. constructor; [split; [lia|exact Ez]|exact H2].
            - apply nth_error_None in Ez. unfold zlen in Hi. lia. }
          clear -Hone Hin. induction g as [|p g IH]; [exists []; split; [reflexivity|constructor]|]. destruct IH as (zp & E & H2); [intros q c Hq; apply Hin; right; exact Hq|].
          destruct (Hone p (fun c => Hin p c (or_introl eq_refl))) as (zs & E1 & H1). exists (zs :: zp). cbn [mapM]. rewrite E1. cbn [bind]. rewrite E. split; [reflexivity|constructor; assumption]. }
      split; [|split].
      + intros pls H. destruct (Z.leb_spec (zlen g) 1) as [|Hl]; [discriminate|].
        destruct g as [|c0 g'] eqn:Eg; [discriminate|]. destruct (negb (forallb (fun c => zlen c =? zlen c0) g')) eqn:Ef; [discriminate|].
        apply bind_ok in H. destruct H as (zp & _ & H). destruct (uneven zp); [discriminate|]. injection H as <-. split; [reflexivity|]. split; [unfold zlen in Hl; lia|].
        apply Bool.negb_false_iff in Ef. rewrite forallb_forall in Ef.
        assert (Hall : forall q, In q (c0 :: g') -> List.length q = List.length c0). { intros q [<-|Hq]; [reflexivity|]. specialize (Ef q Hq). unfold zlen in Ef. lia. }
        intros p q Hp' Hq. rewrite (Hall p Hp'), (Hall q Hq). reflexivity.
      + intros Hl Heq Hun. destruct (Z.leb_spec (zlen g) 1) as [Hl'|_]; [unfold zlen in Hl'; lia|].
        destruct g as [|c0 g'] eqn:Eg; [cbn in Hl; lia|].
        assert (forallb (fun c => zlen c =? zlen c0) g' = true) as ->. { apply forallb_forall. intros c Hc. unfold zlen. rewrite (Heq c c0); [lia|right; exact Hc|left; reflexivity]. }
        cbn [negb]. rewrite <- Eg in *. clear Eg.
        destruct Hzp as (zp & -> & H2z). cbn [bind]. rewrite (Hun zp H2z). reflexivity.
      + destruct (zlen g <=? 1); [right; reflexivity|]. destruct g as [|c0 g'] eqn:Eg; [right; reflexivity|]. destruct (negb _); [right; reflexivity|].
        destruct Hzp as (zp & -> & _). cbn [bind]. destruct (uneven zp); [right|left]; reflexivity.
  Qed.
End Planes.

(** The planes are determined by the positions. *)
Section Unique.
  Context {S : Type} (gap : S -> S -> bool) (zle : S -> S -> Prop).
  Hypothesis gap_sym : forall a b, gap a b = gap b a.
  Hypothesis gap_zero : forall a b, zle a b -> zle b a -> gap a b = false.
  Variable zpos : list S.

  Definition cls (A : list (list Z)) (x : Z) (i : nat) : Prop := exists p, nth_error A i = Some p /\ In x p.
  Lemma cls_in A x : In x (List.concat A) <-> exists i, cls A x i.
  Proof.
    rewrite in_concat. split.
    - intros (p & Hp & Hx). apply In_nth_error in Hp. destruct Hp as (i & Hi). exists i, p. auto.
    - intros (i & p & Hi & Hx). exists p. split; [apply nth_error_In in Hi; exact Hi|exact Hx].
  Qed.
  Lemma nodup_concat (A : list (list Z)) : NoDup (List.concat A) -> forall i j x, cls A x i -> cls A x j -> i = j.
  Proof.
    induction A as [|a A IH]; intros Hnd i j x (p & Hi & Hx) (q & Hj & Hy); [destruct i; discriminate|]. cbn in Hnd. apply NoDup_app in Hnd. destruct Hnd as (_ & N2 & Hd).
    destruct i as [|i], j as [|j]; try reflexivity; cbn in Hi, Hj.
    - injection Hi as ->. exfalso. apply (Hd x Hx). apply cls_in. exists j, q. auto.
    - injection Hj as ->. exfalso. apply (Hd x Hy). apply cls_in. exists i, p. auto.
    - f_equal. apply (IH N2 i j x); [exists p|exists q]; auto.
  Qed.
  Lemma planes_nodup A : are_planes gap zle zpos A -> NoDup (List.concat A).
  Proof. intros H. rewrite (ap_all _ _ _ _ H). apply NoDup_zrange. Qed.
  Lemma planes_in A : are_planes gap zle zpos A -> forall x, 0 <= x < zlen zpos <-> exists i, cls A x i.
  Proof. intros H x. rewrite <- cls_in, (ap_all _ _ _ _ H), in_zrange. reflexivity. Qed.
  Lemma cell_z A x i : are_planes gap zle zpos A -> cls A x i -> exists z, nth_error zpos (Z.to_nat x) = Some z.
  Proof.
    intros H Hx. assert (Hb : 0 <= x < zlen zpos) by (apply (planes_in A H); exists i; exact Hx). destruct (nth_error zpos (Z.to_nat x)) as [z|] eqn:E; [exists z; reflexivity|].
    apply nth_error_None in E. unfold zlen in Hb. lia.
  Qed.
  Lemma same_class A a b : are_planes gap zle zpos A -> same_plane gap zpos a b ->
    ((exists i, cls A a i) <-> (exists j, cls A b j)) /\ forall i j, cls A a i -> cls A b j -> i = j.
  Proof.
    intros HA H. induction H as [a b H|a|a b H [IH1 IH2]|a b c H [IH1 IH2] H' [IH1' IH2']].
    - destruct H as (Ha0 & Hb0 & za & zb & Ha & Hb & Hg). split.
      + rewrite <- !(planes_in A HA). assert (Z.to_nat a < List.length zpos)%nat by (apply nth_error_Some; congruence). assert (Z.to_nat b < List.length zpos)%nat by (apply nth_error_Some; congruence). unfold zlen. lia.
      + intros i j (p & Hi & Hp) (q & Hj & Hq). destruct (Nat.lt_trichotomy i j) as [Hlt|[E|Hlt]]; [|exact E|].
        * destruct (ap_apart _ _ _ _ HA i j p q a b za zb Hlt Hi Hj Hp Hq Ha Hb). congruence.
        * destruct (ap_apart _ _ _ _ HA j i q p b a zb za Hlt Hj Hi Hq Hp Hb Ha) as [_ Hg']. rewrite gap_sym in Hg'. congruence.
    - split; [reflexivity|]. intros i j. apply nodup_concat. apply planes_nodup. exact HA.
    - split; [symmetry; exact IH1|]. intros i j Hi Hj. symmetry. apply IH2; assumption.
    - split; [rewrite IH1; exact IH1'|]. intros i j Hi Hj. assert (Hb : exists k, cls A b k) by (apply IH1; exists i; exact Hi). destruct Hb as (k & Hk). rewrite (IH2 i k Hi Hk). apply IH2'; assumption.
  Qed.

  Definition plt (a b : Z) : Prop := exists za zb, nth_error zpos (Z.to_nat a) = Some za /\ nth_error zpos (Z.to_nat b) = Some zb /\ zle za zb /\ gap za zb = true.
  Lemma plt_asym a b : plt a b -> plt b a -> False.
  Proof. intros (za & zb & Ha & Hb & H1 & Hg) (zb' & za' & Hb' & Ha' & H2 & _). assert (za' = za) by congruence. assert (zb' = zb) by congruence. subst. rewrite gap_zero in Hg by assumption. discriminate. Qed.

  Lemma uniq_lists : forall A B : list (list Z), NoDup (List.concat A) -> Permutation (List.concat A) (List.concat B) ->
    Forall (fun p => p <> []) A -> Forall (fun p => p <> []) B ->
    (forall a b, In a (List.concat A) -> In b (List.concat A) -> ((exists i, cls A a i /\ cls A b i) <-> (exists i, cls B a i /\ cls B b i))) ->
    (forall i j a b, (i < j)%nat -> cls A a i -> cls A b j -> plt a b) -> (forall i j a b, (i < j)%nat -> cls B a i -> cls B b j -> plt a b) ->
    Forall2 (@Permutation Z) A B.
  Proof.
    induction A as [|p A IH]; intros B Hnd Hp HneA HneB Heq HltA HltB.
    - destruct B as [|q B]; [constructor|]. exfalso. cbn in Hp. apply Permutation_nil in Hp. inversion HneB as [|? ? Hq]; subst. destruct q; [congruence|discriminate].
    - destruct B as [|q B]. { exfalso. cbn in Hp. symmetry in Hp. apply Permutation_nil in Hp. inversion HneA as [|? ? Hq]; subst. destruct p; [congruence|discriminate]. }
      assert (HndB : NoDup (List.concat (q :: B))) by (apply (Permutation_NoDup Hp); exact Hnd).
      inversion HneA as [|? ? Hp0 HneA']; inversion HneB as [|? ? Hq0 HneB']; subst.
      destruct p as [|a0 p0] eqn:Ep; [congruence|]. rewrite <- Ep in *. assert (Ha0 : cls (p :: A) a0 0) by (exists p; split; [reflexivity|rewrite Ep; left; reflexivity]). clear Ep.
      destruct q as [|b0 q0] eqn:Eq; [congruence|]. rewrite <- Eq in *. assert (Hb0 : cls (q :: B) b0 0) by (exists q; split; [reflexivity|rewrite Eq; left; reflexivity]). clear Eq.
      assert (Hin : forall x, (exists i, cls (p :: A) x i) <-> (exists i, cls (q :: B) x i)). { intros x. rewrite <- !cls_in, Hp. reflexivity. }
      assert (Hhead : exists i, cls (p :: A) a0 i /\ cls (p :: A) b0 i).
      { destruct (proj1 (Hin a0) (ex_intro _ _ Ha0)) as (k & Hk). destruct (proj2 (Hin b0) (ex_intro _ _ Hb0)) as (m & Hm).
        destruct k as [|k].
        - apply Heq; [apply cls_in; eauto|apply cls_in; eauto|]. exists 0%nat. auto.
        - destruct m as [|m]; [exists 0%nat; auto|]. exfalso. apply (plt_asym a0 b0); [apply (HltA 0%nat (Datatypes.S m)); [lia|exact Ha0|exact Hm]|apply (HltB 0%nat (Datatypes.S k)); [lia|exact Hb0|exact Hk]]. }
      assert (HheadB : exists i, cls (q :: B) a0 i /\ cls (q :: B) b0 i). { apply Heq; [apply cls_in; eauto|apply cls_in; apply Hin; eauto|exact Hhead]. }
      destruct Hhead as (i & Hi1 & Hi2). rewrite (nodup_concat _ Hnd _ _ _ Hi1 Ha0) in *. clear i Hi1. destruct HheadB as (i & Hi3 & Hi4). rewrite (nodup_concat _ HndB _ _ _ Hi4 Hb0) in *. clear i Hi4.
      assert (Hset : forall x, In x p <-> In x q).
      { intros x. split; intros Hx.
        - assert (Hc : cls (p :: A) x 0) by (exists p; auto). assert (Hs : exists i, cls (q :: B) a0 i /\ cls (q :: B) x i). { apply Heq; [apply cls_in; eauto|apply cls_in; eauto|exists 0%nat; auto]. }
          destruct Hs as (i & H1 & H2). rewrite (nodup_concat _ HndB _ _ _ H1 Hi3) in H2. destruct H2 as (q' & E & H2). cbn in E. injection E as <-. exact H2.
        - assert (Hc : cls (q :: B) x 0) by (exists q; auto). assert (Hs : exists i, cls (p :: A) a0 i /\ cls (p :: A) x i). { apply Heq; [apply cls_in; eauto|apply cls_in; apply Hin; eauto|exists 0%nat; auto]. }
          destruct Hs as (i & H1 & H2). rewrite (nodup_concat _ Hnd _ _ _ H1 Ha0) in H2. destruct H2 as (q' & E & H2). cbn in E. injection E as <-. exact H2. }
      cbn [List.concat] in Hnd, HndB, Hp. pose proof (proj1 (NoDup_app _ _) Hnd) as (N1 & N2 & Nd). pose proof (proj1 (NoDup_app _ _) HndB) as (M1 & M2 & Md).
      assert (Hpq : Permutation p q) by (apply NoDup_Permutation; assumption). constructor; [exact Hpq|]. apply IH; try assumption.
      + rewrite Hpq in Hp. apply Permutation_app_inv_l in Hp. exact Hp.
      + intros a b Ha Hb. assert (HA : forall x i, cls A x i <-> cls (p :: A) x (Datatypes.S i)) by reflexivity. assert (HB : forall x i, cls B x i <-> cls (q :: B) x (Datatypes.S i)) by reflexivity.
        specialize (Heq a b). cbn [List.concat] in Heq. specialize (Heq ltac:(apply in_or_app; right; exact Ha) ltac:(apply in_or_app; right; exact Hb)).
        assert (Hnp : forall x, In x (List.concat A) -> ~ In x p). { intros x Hx Hxp. apply (Nd x Hxp Hx). }
        split.
        * intros (i & H1 & H2). assert (Hs : exists i, cls (q :: B) a i /\ cls (q :: B) b i) by (apply Heq; exists (Datatypes.S i); auto). destruct Hs as ([|k] & H3 & H4); [|exists k; auto].
          exfalso. destruct H3 as (q' & E & H3). cbn in E. injection E as <-. apply Hset in H3. apply (Hnp a Ha H3).
        * intros (i & H1 & H2). assert (Hs : exists i, cls (p :: A) a i /\ cls (p :: A) b i) by (apply Heq; exists (Datatypes.S i); auto). destruct Hs as ([|k] & H3 & H4); [|exists k; auto].
          exfalso. destruct H3 as (q' & E & H3). cbn in E. injection E as <-. apply (Hnp a Ha H3).
      + intros i j a b Hij. apply (HltA (Datatypes.S i) (Datatypes.S j)). lia.
      + intros i j a b Hij. apply (HltB (Datatypes.S i) (Datatypes.S j)). lia.
  Qed.
  Lemma planes_unique A B : are_planes gap zle zpos A -> are_planes gap zle zpos B -> Forall2 (@Permutation Z) A B.
  Proof.
    intros HA HB. assert (Hlt : forall A, are_planes gap zle zpos A -> forall i j a b, (i < j)%nat -> cls A a i -> cls A b j -> plt a b).
    { intros A' HA' i j a b Hij Ha Hb. destruct (cell_z A' a i HA' Ha) as (za & Hza). destruct (cell_z A' b j HA' Hb) as (zb & Hzb). destruct Ha as (p & Hi & Hp), Hb as (q & Hj & Hq).
      exists za, zb. split; [exact Hza|]. split; [exact Hzb|]. apply (ap_apart _ _ _ _ HA' i j p q a b); assumption. }
    assert (Hdir : forall A B, are_planes gap zle zpos A -> are_planes gap zle zpos B -> forall a b, (exists i, cls A a i /\ cls A b i) -> exists i, cls B a i /\ cls B b i).
    { intros A' B' HA' HB' a b (i & (p & Hi & Hp) & (p' & Hi' & Hp')). assert (p' = p) by congruence. subst p'.
      assert (Hs : same_plane gap zpos a b) by (apply (ap_joined _ _ _ _ HA' p); try assumption; apply nth_error_In in Hi; exact Hi).
      assert (Hca : exists k, cls B' a k). { apply (planes_in B' HB'). apply (planes_in A' HA'). exists i, p. auto. }
      assert (Hcb : exists k, cls B' b k). { apply (planes_in B' HB'). apply (planes_in A' HA'). exists i, p. auto. }
      destruct Hca as (k & Hk), Hcb as (k' & Hk'). exists k. split; [exact Hk|]. rewrite (proj2 (same_class B' a b HB' Hs) k k' Hk Hk'). exact Hk'. }
    apply uniq_lists; try (apply planes_nodup; assumption); try (eapply ap_some; eassumption); try (apply Hlt; assumption).
    - rewrite (ap_all _ _ _ _ HA), (ap_all _ _ _ _ HB). reflexivity.
    - intros a b _ _. split; apply Hdir; assumption.
  Qed.
End Unique.

(** ** Matching planes *)
  Lemma column_total {A} (rows : list (list A)) j : (forall r, In r rows -> (j < List.length r)%nat) -> exists l, column rows (Z.of_nat j) = Ok l /\ Forall2 (fun r x => nth_error r j = Some x) rows l.
  Proof.
    induction rows as [|r rows IH]; intros H; [exists []; split; [reflexivity|constructor]|]. destruct IH as (l & E & H2); [intros r' Hr'; apply H; right; exact Hr'|].
    specialize (H r (or_introl eq_refl)). destruct (nth_error r j) as [x|] eqn:Ex; [|apply nth_error_None in Ex; lia].
    exists (x :: l). unfold column in *. cbn [mapM]. rewrite (py_get_nth r (Z.of_nat j) x ltac:(lia)) by (rewrite Nat2Z.id; exact Ex). cbn [bind]. rewrite E. split; [reflexivity|constructor; assumption].
  Qed.
  Lemma column_inv {A} (rows : list (list A)) j l : column rows (Z.of_nat j) = Ok l -> Forall2 (fun r x => nth_error r j = Some x) rows l.
  Proof.
    intros H. unfold column in H. apply mapM_ok_Forall2 in H. induction H as [|r x rows l Hx _ IH]; constructor; [|exact IH]. apply py_get_nonneg in Hx; [|lia]. rewrite Nat2Z.id in Hx. exact Hx.
  Qed.

Section Match.
  Context {P D : Type} (nearest : list P -> P -> Z) (kdist : P -> P -> D) (dle : D -> D -> bool) (tol : D) (spread : list P -> bool).
  Hypothesis dle_total : forall a b, dle a b = true \/ dle b a = true.
  Hypothesis dle_trans : forall a b c, dle a b = true -> dle b c = true -> dle a c = true.
  Hypothesis nearest_ok : forall ref p, ref <> [] ->
    0 <= nearest ref p /\ exists q, nth_error ref (Z.to_nat (nearest ref p)) = Some q /\
                                   forall q', In q' ref -> dle (kdist q p) (kdist q' p) = true.
  Variable xypos : list P.
  Notation xat := (at_pos xypos).
  Notation close := (close_to kdist dle tol xypos).
  Lemma take_xat l ps : np_take xypos l = Ok ps -> Forall (fun c => 0 <= c) l -> Forall2 xat l ps.
  Proof.
    intros H Hl. unfold np_take in H. apply mapM_ok_Forall2 in H. induction H as [|c p l ps Hc _ IH]; [constructor|]. inversion Hl; subst. constructor; [|apply IH; assumption].
    split; [assumption|]. apply py_get_nonneg in Hc; assumption.
  Qed.
  Lemma take_total l : (forall c, In c l -> 0 <= c < zlen xypos) -> exists ps, np_take xypos l = Ok ps /\ Forall2 xat l ps.
  Proof.
    induction l as [|c l IH]; intros H; [exists []; split; [reflexivity|constructor]|]. destruct IH as (ps & E & H2); [intros x Hx; apply H; right; exact Hx|].
    pose proof (H c (or_introl eq_refl)) as Hc. destruct (nth_error xypos (Z.to_nat c)) as [p|] eqn:Ec; [|apply nth_error_None in Ec; unfold zlen in Hc; lia].
    exists (p :: ps). unfold np_take in *. cbn [mapM]. rewrite (py_get_nth _ _ _ (proj1 Hc) Ec). cbn [bind]. rewrite E. split; [reflexivity|]. constructor; [split; [lia|exact Ec]|exact H2].
  Qed.
  Lemma xat_fun c p p' : xat c p -> xat c p' -> p = p'.
  Proof. intros [_ H] [_ H']. congruence. Qed.

  Lemma match_spec c0 ref chunk row : Forall2 xat c0 ref -> c0 <> [] -> List.length chunk = List.length c0 -> Forall (fun c => 0 <= c) chunk -> NoDup chunk ->
    (forall r c c', In r c0 -> In c chunk -> In c' chunk -> close r c -> close r c' -> c = c') ->
    match_plane nearest kdist dle tol xypos ref (zlen c0) chunk = Ok row ->
    Permutation row chunk /\ (forall j r c, nth_error c0 j = Some r -> nth_error row j = Some c -> close r c).
  Proof.
    intros Hc0 Hne Hl Hpos Hnd Hsep H. unfold match_plane in H. apply bind_ok in H. destruct H as (pos & Hps & H). apply bind_ok in H. destruct H as (df & Hdf & H).
    apply bind_ok in H. destruct H as (dm & Hdm & H). destruct (dgt dle dm tol) eqn:Ed; [discriminate|].
    assert (Hrne : ref <> []) by (intros ->; inversion Hc0; congruence).
    pose proof (query_ok kdist kdist dle nearest dle_total dle_trans nearest_ok ref pos tol df dm Hrne Hdf Hdm Ed) as Hq.
    pose proof (take_xat _ _ Hps Hpos) as H2. pose proof (Forall2_length' _ _ _ H2) as Hlp. pose proof (Forall2_length' _ _ _ Hc0) as Hlr.
    set (idx := List.map (nearest ref) pos) in *.
    assert (Hk : forall k c, nth_error chunk k = Some c -> exists p q r, nth_error pos k = Some p /\ xat c p /\ nth_error idx k = Some (nearest ref p) /\
       0 <= nearest ref p < zlen c0 /\ nth_error c0 (Z.to_nat (nearest ref p)) = Some r /\ xat r q /\ close r c).
    { intros k c Hkc. destruct (VtkProofs.Forall2_nth _ _ _ _ _ H2 Hkc) as (p & Hp & Hcp). destruct (Hq p) as (q & Hnq & Hb & Hd); [apply nth_error_In in Hp; exact Hp|].
      assert (Hr : exists r, nth_error c0 (Z.to_nat (nearest ref p)) = Some r). { destruct (nth_error c0 (Z.to_nat (nearest ref p))) as [r|] eqn:E; [eauto|]. apply nth_error_None in E. unfold zlen in Hb. lia. }
      destruct Hr as (r & Hr). destruct (VtkProofs.Forall2_nth _ _ _ _ _ Hc0 Hr) as (q' & Hq' & Hrq). assert (q' = q) by congruence. subst q'.
      exists p, q, r. split; [exact Hp|]. split; [exact Hcp|]. split; [unfold idx; rewrite nth_error_map, Hp; reflexivity|]. split; [unfold zlen in *; lia|]. split; [exact Hr|]. split; [exact Hrq|].
      exists q, p. auto. }
    assert (Hinj : NoDup idx).
    { apply NoDup_nth_error. intros i j Hi Hij. assert (Hil : (i < List.length chunk)%nat) by (unfold idx in Hi; rewrite map_length in Hi; lia).
      destruct (nth_error chunk i) as [ci|] eqn:Ei; [|apply nth_error_None in Ei; lia]. destruct (Hk i ci Ei) as (p & q & r & Hp & Hcp & Hix & Hb & Hr & Hrq & Hcl).
      rewrite Hix in Hij. symmetry in Hij. assert (Hjl : (j < List.length chunk)%nat) by (rewrite Hlp; assert (Hjn : nth_error idx j <> None) by congruence; apply nth_error_Some in Hjn; unfold idx in Hjn; rewrite map_length in Hjn; exact Hjn).
      destruct (nth_error chunk j) as [cj|] eqn:Ej; [|apply nth_error_None in Ej; lia]. destruct (Hk j cj Ej) as (p' & q' & r' & Hp' & Hcp' & Hjx & Hb' & Hr' & Hrq' & Hcl').
      assert (En : nearest ref p' = nearest ref p) by congruence. rewrite En in Hr'. assert (r' = r) by congruence. subst r'.
      assert (ci = cj). { apply (Hsep r); [apply nth_error_In in Hr; exact Hr|apply nth_error_In in Ei; exact Ei|apply nth_error_In in Ej; exact Ej|exact Hcl|exact Hcl']. }
      subst cj. apply (proj1 (NoDup_nth_error chunk) Hnd); [exact Hil|congruence]. }
    assert (Hib : forall j, In j idx -> 0 <= j < zlen c0).
    { intros j Hj. apply In_nth_error in Hj. destruct Hj as (k & Hj). assert (Hkl : (k < List.length chunk)%nat) by (rewrite Hlp; assert (Hjn : nth_error idx k <> None) by congruence; apply nth_error_Some in Hjn; unfold idx in Hjn; rewrite map_length in Hjn; exact Hjn).
      destruct (nth_error chunk k) as [c|] eqn:Ec; [|apply nth_error_None in Ec; lia]. destruct (Hk k c Ec) as (p & q & r & Hp & _ & Hix & Hb & _). rewrite Hix in Hj. injection Hj as <-. exact Hb. }
    assert (Hli : zlen idx = zlen c0) by (unfold idx, zlen; rewrite map_length; lia).
    destruct (np_put_ok idx chunk (List.map (fun _ => 0) (zrange 0 (zlen c0)))) as (row' & Er & Hlrow & _ & Hyes).
    { unfold idx. rewrite map_length. lia. }
    { intros j Hj. rewrite zlen_map. unfold zlen at 1. rewrite zrange_length. specialize (Hib j Hj). lia. }
    rewrite Er in H. injection H as ->. rewrite map_length, zrange_length in Hlrow.
    assert (Hrow : forall j c, nth_error row j = Some c -> exists k, nth_error idx k = Some (Z.of_nat j) /\ nth_error chunk k = Some c).
    { intros j c Hj. assert (Hjl : (j < List.length row)%nat) by (apply nth_error_Some; congruence).
      assert (Hjin : In (Z.of_nat j) idx). { apply (nodup_full idx (zlen c0) Hinj Hli Hib). unfold zlen in *. lia. }
      destruct (Hyes _ Hjin) as (k & v & Hk1 & Hk2 & Hk3). rewrite Nat2Z.id in Hk3. exists k. split; [exact Hk1|]. congruence. }
    split.
    - apply NoDup_Permutation_bis.
      + apply NoDup_nth_error. intros i j Hi Hij. destruct (nth_error row i) as [c|] eqn:Ei; [|apply nth_error_None in Ei; lia]. symmetry in Hij.
        destruct (Hrow i c Ei) as (k & H1 & H1'). destruct (Hrow j c Hij) as (k' & H3 & H3').
        assert (k = k') by (apply (proj1 (NoDup_nth_error chunk) Hnd); [apply nth_error_Some; congruence|congruence]). subst k'. assert (Z.of_nat i = Z.of_nat j) by congruence. lia.
      + rewrite Hlrow. unfold zlen. lia.
      + intros c Hc. apply In_nth_error in Hc. destruct Hc as (j & Hj). destruct (Hrow j c Hj) as (k & _ & Hkc). apply nth_error_In in Hkc. exact Hkc.
    - intros j r c Hj Hc. destruct (Hrow j c Hc) as (k & H1 & H3). destruct (Hk k c H3) as (p & q & r' & _ & _ & Hix & Hb & Hr & _ & Hcl). rewrite H1 in Hix. injection Hix as Hix. rewrite <- Hix, Nat2Z.id in Hr. assert (r' = r) by congruence. subst r'. exact Hcl.
  Qed.

  Lemma match_total c0 ref chunk : Forall2 xat c0 ref -> c0 <> [] -> chunk <> [] -> (forall c, In c chunk -> 0 <= c < zlen xypos) ->
    (forall c, In c chunk -> exists r, In r c0 /\ close r c) -> exists row, match_plane nearest kdist dle tol xypos ref (zlen c0) chunk = Ok row.
  Proof.
    intros Hc0 Hne Hcne Hin Hcl. unfold match_plane. destruct (take_total chunk Hin) as (pos & -> & H2). cbn [bind].
    assert (Hrne : ref <> []) by (intros ->; inversion Hc0; congruence). pose proof (Forall2_length' _ _ _ Hc0) as Hlr.
    set (df := List.map (fun p => match nth_error ref (Z.to_nat (nearest ref p)) with Some q => kdist q p | None => kdist p p end) pos).
    assert (Edf : mapM (fun p => q <- py_get ref (nearest ref p) ;; Ok (kdist q p)) pos = Ok df).
    { apply mapM_map. intros p _. destruct (nearest_ok ref p Hrne) as (H0 & q & Hq & _). rewrite (py_get_nth _ _ _ H0 Hq), Hq. reflexivity. }
    rewrite Edf. cbn [bind]. assert (Hpne : pos <> []) by (intros ->; inversion H2; congruence).
    destruct (np_max_total dle df) as (dm & Edm). { unfold df. destruct pos; [congruence|discriminate]. }
    rewrite Edm. cbn [bind].
    assert (Ed : dgt dle dm tol = false).
    { apply (np_max_le dle dle_total dle_trans df dm tol Edm). intros y Hy. unfold df in Hy. apply in_map_iff in Hy. destruct Hy as (p & <- & Hp).
      destruct (nearest_ok ref p Hrne) as (H0 & q & Hq & Hmin). rewrite Hq.
      apply In_nth_error in Hp. destruct Hp as (k & Hk). assert (Hc : exists c, nth_error chunk k = Some c /\ xat c p).
      { pose proof (Forall2_length' _ _ _ H2) as Hl. destruct (nth_error chunk k) as [c|] eqn:Ec; [|apply nth_error_None in Ec; assert (Hkn : nth_error pos k <> None) by congruence; apply nth_error_Some in Hkn; lia].
        exists c. split; [reflexivity|]. destruct (VtkProofs.Forall2_nth _ _ _ _ _ H2 Ec) as (p' & Hp' & Hx). congruence. }
      destruct Hc as (c & Hc & Hcp). destruct (Hcl c) as (r & Hr & q' & p' & Hrq & Hcp' & Hd); [apply nth_error_In in Hc; exact Hc|]. rewrite (xat_fun _ _ _ Hcp' Hcp) in Hd.
      apply (dle_trans _ (kdist q' p)); [|exact Hd]. apply Hmin. apply In_nth_error in Hr. destruct Hr as (m & Hm). destruct (VtkProofs.Forall2_nth _ _ _ _ _ Hc0 Hm) as (q'' & Hq'' & Hx). rewrite (xat_fun _ _ _ Hrq Hx). apply nth_error_In in Hq''. exact Hq''. }
    rewrite Ed. destruct (np_put_ok (List.map (nearest ref) pos) chunk (List.map (fun _ => 0) (zrange 0 (zlen c0)))) as (row & Er & _).
    - rewrite map_length. symmetry. apply (Forall2_length' _ _ _ H2).
    - intros j Hj. apply in_map_iff in Hj. destruct Hj as (p & <- & _). destruct (nearest_ok ref p Hrne) as (H0 & q & Hq & _).
      assert (Hlt : (Z.to_nat (nearest ref p) < List.length ref)%nat) by (apply nth_error_Some; congruence). rewrite zlen_map. unfold zlen at 1. rewrite zrange_length. unfold zlen in *. lia.
    - exists row. exact Er.
  Qed.

  (** Without any condition on the places, matching succeeds or is refused with ValueError; the table
      has as many cells in each row, all of them cells of the mesh. *)
  Lemma put_in {A} : forall (idx : list Z) (vals l l' : list A) x, np_put l idx vals = Ok l' -> In x l' -> In x l \/ In x vals.
  Proof.
    induction idx as [|i idx IH]; intros vals l l' x H Hx; destruct vals as [|v vals]; cbn [np_put] in H; try discriminate; [injection H as <-; left; exact Hx|].
    apply bind_ok in H. destruct H as (l1 & H1 & H). destruct (IH _ _ _ _ H Hx) as [Hl|Hv]; [|right; right; exact Hv].
    unfold py_set in H1. destruct (_ || _)%bool; [discriminate|]. injection H1 as <-. apply In_nth_error in Hl. destruct Hl as (k & Hk).
    revert Hk. set (n := Z.to_nat _). clearbody n. clear -n. revert l k. induction n as [|n IHn]; intros [|y l] [|k] Hk; cbn in Hk; try discriminate.
    - injection Hk as <-. right. left. reflexivity.
    - left. right. apply nth_error_In in Hk. exact Hk.
    - injection Hk as <-. left. left. reflexivity.
    - destruct (IHn l k Hk) as [Hl|Hl]; [left; right; exact Hl|right; exact Hl].
  Qed.
  Lemma match_either c0 ref chunk : Forall2 xat c0 ref -> c0 <> [] -> chunk <> [] -> (forall c, In c chunk -> 0 <= c < zlen xypos) ->
    match_plane nearest kdist dle tol xypos ref (zlen c0) chunk = Err ValueError \/
    exists row, match_plane nearest kdist dle tol xypos ref (zlen c0) chunk = Ok row /\ List.length row = List.length c0 /\ forall c, In c row -> 0 <= c < zlen xypos.
  Proof.
    intros Hc0 Hne Hcne Hin. unfold match_plane. destruct (take_total chunk Hin) as (pos & -> & H2). cbn [bind].
    assert (Hrne : ref <> []) by (intros ->; inversion Hc0; congruence). pose proof (Forall2_length' _ _ _ Hc0) as Hlr.
    set (df := List.map (fun p => match nth_error ref (Z.to_nat (nearest ref p)) with Some q => kdist q p | None => kdist p p end) pos).
    assert (Edf : mapM (fun p => q <- py_get ref (nearest ref p) ;; Ok (kdist q p)) pos = Ok df).
    { apply mapM_map. intros p _. destruct (nearest_ok ref p Hrne) as (H0 & q & Hq & _). rewrite (py_get_nth _ _ _ H0 Hq), Hq. reflexivity. }
    rewrite Edf. cbn [bind]. assert (Hpne : pos <> []) by (intros ->; inversion H2; congruence).
    destruct (np_max_total dle df) as (dm & Edm). { unfold df. destruct pos; [congruence|discriminate]. }
    rewrite Edm. cbn [bind]. destruct (dgt dle dm tol); [left; reflexivity|right].
    destruct (np_put_ok (List.map (nearest ref) pos) chunk (List.map (fun _ => 0) (zrange 0 (zlen c0)))) as (row & Er & Hl & _).
    - rewrite map_length. symmetry. apply (Forall2_length' _ _ _ H2).
    - intros j Hj. apply in_map_iff in Hj. destruct Hj as (p & <- & _). destruct (nearest_ok ref p Hrne) as (H0 & q & Hq & _).
      assert (Hlt : (Z.to_nat (nearest ref p) < List.length ref)%nat) by (apply nth_error_Some; congruence). rewrite zlen_map. unfold zlen at 1. rewrite zrange_length. unfold zlen in *. lia.
    - exists row. split; [exact Er|]. split; [rewrite Hl, map_length, zrange_length; unfold zlen; lia|].
      intros c Hc. destruct (put_in _ _ _ _ _ Er Hc) as [H0|Hc']; [|apply Hin; exact Hc']. apply in_map_iff in H0. destruct H0 as (k & <- & _).
      destruct chunk as [|c' chunk]; [congruence|]. specialize (Hin c' (or_introl eq_refl)). lia.
  Qed.
  Lemma ikplanes_either c0 r : c0 <> [] -> (forall p, In p r -> p <> []) ->
    (forall c, In c (List.concat (c0 :: r)) -> 0 <= c < zlen xypos) ->
    ikplanes nearest kdist dle tol spread xypos (c0 :: r) = Err ValueError \/
    exists rows, ikplanes nearest kdist dle tol spread xypos (c0 :: r) = Ok (c0 :: rows) /\ List.length rows = List.length r /\
      forall row, In row rows -> List.length row = List.length c0 /\ forall c, In c row -> 0 <= c < zlen xypos.
  Proof.
    intros Hne Hrn Hin. unfold ikplanes. cbn [List.concat] in Hin.
    destruct (take_total c0) as (ref & Eref & H2). { intros c Hc. apply Hin. apply in_or_app. left. exact Hc. }
    rewrite Eref. cbn [bind].
    assert (Hrows : mapM (match_plane nearest kdist dle tol xypos ref (zlen c0)) r = Err ValueError \/
       exists rows, mapM (match_plane nearest kdist dle tol xypos ref (zlen c0)) r = Ok rows /\ List.length rows = List.length r /\
         forall row, In row rows -> List.length row = List.length c0 /\ forall c, In c row -> 0 <= c < zlen xypos).
    { assert (Hin' : forall c, In c (List.concat r) -> 0 <= c < zlen xypos) by (intros c Hc; apply Hin, in_or_app; right; exact Hc). clear Hin.
      induction r as [|p r IH]; [right; exists []; split; [reflexivity|split; [reflexivity|intros ? []]] |]. cbn [mapM List.concat] in *.
      destruct (match_either c0 ref p H2 Hne) as [->|(row & -> & Hl & Hb)]; [apply Hrn; left; reflexivity|intros c Hc; apply Hin', in_or_app; left; exact Hc|left; reflexivity|]. cbn [bind].
      destruct IH as [->|(rows & -> & Hl2 & Hb2)]; [intros q Hq; apply Hrn; right; exact Hq|intros c Hc; apply Hin', in_or_app; right; exact Hc|left; reflexivity|right]. cbn [bind].
      exists (row :: rows). split; [reflexivity|]. split; [cbn; lia|]. intros row' [<-|Hr']; [split; assumption|apply Hb2; exact Hr']. }
    destruct Hrows as [->|(rows & -> & Hl & Hb)]; [left; reflexivity|]. cbn [bind].
    assert (Hcols : exists cols, mapM (fun j => ids <- column (c0 :: rows) j ;; np_take xypos ids) (zrange 0 (zlen c0)) = Ok cols).
    { assert (Hall : forall js, (forall j, In j js -> 0 <= j < zlen c0) -> exists cols, mapM (fun j => ids <- column (c0 :: rows) j ;; np_take xypos ids) js = Ok cols).
      { induction js as [|j js IH]; intros Hj; [exists []; reflexivity|]. destruct IH as (cols & E); [intros i Hi; apply Hj; right; exact Hi|]. pose proof (Hj j (or_introl eq_refl)) as Hjb.
        destruct (column_total (c0 :: rows) (Z.to_nat j)) as (ids & Eids & Hids).
        { intros row [<-|Hrow]; [unfold zlen in Hjb; lia|]. rewrite (proj1 (Hb row Hrow)). unfold zlen in Hjb. lia. }
        rewrite Z2Nat.id in Eids by lia. cbn [mapM]. rewrite Eids. cbn [bind].
        destruct (take_total ids) as (ps & Eps & _); [|rewrite Eps; cbn [bind]; rewrite E; eexists; reflexivity].
        intros c Hc. apply In_nth_error in Hc. destruct Hc as (k & Hk). assert (Hkr : exists row, nth_error (c0 :: rows) k = Some row). { destruct (nth_error (c0 :: rows) k) as [row|] eqn:E'; [eauto|]. apply nth_error_None in E'. pose proof (Forall2_length' _ _ _ Hids) as Hll. assert (Hkn : nth_error ids k <> None) by congruence. apply nth_error_Some in Hkn. lia. }
        destruct Hkr as (row & Hrow). destruct (VtkProofs.Forall2_nth _ _ _ _ _ Hids Hrow) as (c' & Hc' & Hx). assert (c' = c) by congruence. subst c'. apply nth_error_In in Hrow, Hx.
        destruct Hrow as [<-|Hrow]; [apply Hin, in_or_app; left; exact Hx|apply (proj2 (Hb row Hrow)); exact Hx]. }
      apply Hall. intros j Hj. apply in_zrange in Hj. exact Hj. }
    destruct Hcols as (cols & ->). cbn [bind]. destruct (existsb spread cols); [left; reflexivity|right]. exists rows. split; [reflexivity|]. split; assumption.
  Qed.

  (** The table of matched cells. *)
  Lemma ikplanes_spec c0 r ik : c0 <> [] -> (forall p, In p (c0 :: r) -> List.length p = List.length c0) -> NoDup (List.concat (c0 :: r)) -> Forall (fun c => 0 <= c) (List.concat (c0 :: r)) ->
    (forall p a c c', In p r -> In a c0 -> In c p -> In c' p -> close a c -> close a c' -> c = c') ->
    ikplanes nearest kdist dle tol spread xypos (c0 :: r) = Ok ik ->
    exists rows, ik = c0 :: rows /\ Forall2 (fun row p => Permutation row p /\ forall j a c, nth_error c0 j = Some a -> nth_error row j = Some c -> close a c) rows r.
  Proof.
    intros Hne Hlen Hnd Hpos Hsep H. unfold ikplanes in H. apply bind_ok in H. destruct H as (ref & Href & H). apply bind_ok in H. destruct H as (rows & Hrows & H).
    apply bind_ok in H. destruct H as (cols & _ & H). destruct (existsb spread cols); [discriminate|]. injection H as <-. exists rows. split; [reflexivity|].
    cbn [List.concat] in Hnd, Hpos. apply Forall_app in Hpos. destruct Hpos as [Hp0 Hpr]. apply NoDup_app in Hnd. destruct Hnd as (_ & Hnd & _).
    pose proof (take_xat _ _ Href Hp0) as H2. apply mapM_ok_Forall2 in Hrows. revert Hlen Hsep Hnd Hpr. clear -Hrows H2 Hne dle_total dle_trans nearest_ok spread. intros Hlen Hsep.
    induction Hrows as [|p row r rows Hm _ IH]; intros Hnd Hpr; [constructor|]. cbn [List.concat] in Hnd, Hpr. apply NoDup_app in Hnd. destruct Hnd as (N1 & N2 & _). apply Forall_app in Hpr. destruct Hpr as [P1 P2].
    constructor.
    - apply (match_spec c0 ref p row H2 Hne); try assumption; [apply Hlen; right; left; reflexivity|]. intros a c c'. apply (Hsep p). left. reflexivity.
    - apply IH; try assumption; [intros q [<-|Hq]; apply Hlen; [left; reflexivity|right; right; exact Hq]|]. intros q a c c' Hq. apply Hsep. right. exact Hq.
  Qed.

  Lemma ikplanes_total c0 r : c0 <> [] -> (forall p, In p (c0 :: r) -> List.length p = List.length c0) -> NoDup (List.concat (c0 :: r)) ->
    (forall c, In c (List.concat (c0 :: r)) -> 0 <= c < zlen xypos) ->
    (forall p a c c', In p r -> In a c0 -> In c p -> In c' p -> close a c -> close a c' -> c = c') ->
    (forall p c, In p r -> In c p -> exists a, In a c0 /\ close a c) ->
    (forall a q ps, xat a q -> Forall (fun p => dle (kdist q p) tol = true) ps -> spread (q :: ps) = false) ->
    exists ik, ikplanes nearest kdist dle tol spread xypos (c0 :: r) = Ok ik.
  Proof.
    intros Hne Hlen Hnd Hin Hsep Hcl Hspread. unfold ikplanes.
    destruct (take_total c0) as (ref & Eref & H2). { intros c Hc. apply Hin. cbn [List.concat]. apply in_or_app. left. exact Hc. }
    rewrite Eref. cbn [bind].
    assert (Hrows : exists rows, mapM (match_plane nearest kdist dle tol xypos ref (zlen c0)) r = Ok rows /\
       Forall2 (fun row p => Permutation row p /\ forall j a c, nth_error c0 j = Some a -> nth_error row j = Some c -> close a c) rows r).
    { cbn [List.concat] in Hnd, Hin. apply NoDup_app in Hnd. destruct Hnd as (_ & Hnd & _). assert (Hin' : forall c, In c (List.concat r) -> 0 <= c < zlen xypos) by (intros c Hc; apply Hin, in_or_app; right; exact Hc).
      clear Hin Eref Hspread. induction r as [|p r IH]; [exists []; split; [reflexivity|constructor]|]. cbn [List.concat] in *. apply NoDup_app in Hnd. destruct Hnd as (N1 & N2 & _).
      destruct IH as (rows & E & H3).
      - intros q [<-|Hq]; apply Hlen; [left; reflexivity|right; right; exact Hq].
      - exact N2.
      - intros q a c c' Hq. apply Hsep. right. exact Hq.
      - intros q c Hq. apply Hcl. right. exact Hq.
      - intros c Hc. apply Hin'. apply in_or_app. right. exact Hc.
      - assert (Hpl : List.length p = List.length c0) by (apply Hlen; right; left; reflexivity).
        destruct (match_total c0 ref p H2 Hne) as (row & Er).
        + intros ->. destruct c0; [congruence|discriminate].
        + intros c Hc. apply Hin'. apply in_or_app. left. exact Hc.
        + intros c Hc. apply (Hcl p c (or_introl eq_refl) Hc).
        + exists (row :: rows). cbn [mapM]. rewrite Er. cbn [bind]. rewrite E. split; [reflexivity|]. constructor; [|exact H3].
          apply (match_spec c0 ref p row H2 Hne Hpl); try assumption.
          * apply Forall_forall. intros c Hc. apply Hin'. apply in_or_app. left. exact Hc.
          * intros a c c'. apply (Hsep p). left. reflexivity. }
    destruct Hrows as (rows & -> & H3). cbn [bind].
    assert (Hrl : forall row, In row rows -> List.length row = List.length c0 /\ forall c, In c row -> 0 <= c < zlen xypos).
    { intros row Hrow. apply In_nth_error in Hrow. destruct Hrow as (k & Hk). destruct (VtkProofs.Forall2_nth _ _ _ _ _ H3 Hk) as (p & Hp & Hperm & _). split.
      - rewrite (Permutation_length Hperm). apply Hlen. right. apply nth_error_In in Hp. exact Hp.
      - intros c Hc. apply Hin. cbn [List.concat]. apply in_or_app. right. apply in_concat. exists p. split; [apply nth_error_In in Hp; exact Hp|]. rewrite <- Hperm. exact Hc. }
    assert (Hcols : exists cols, mapM (fun j => ids <- column (c0 :: rows) j ;; np_take xypos ids) (zrange 0 (zlen c0)) = Ok cols /\ existsb spread cols = false).
    { assert (Hall : forall js, (forall j, In j js -> 0 <= j < zlen c0) -> exists cols, mapM (fun j => ids <- column (c0 :: rows) j ;; np_take xypos ids) js = Ok cols /\ existsb spread cols = false).
      { induction js as [|j js IH]; intros Hj; [exists []; split; reflexivity|]. destruct IH as (cols & E & Hs); [intros i Hi; apply Hj; right; exact Hi|]. pose proof (Hj j (or_introl eq_refl)) as Hjb.
        destruct (column_total (c0 :: rows) (Z.to_nat j)) as (ids & Eids & Hids).
        { intros row [<-|Hrow]; [unfold zlen in Hjb; lia|]. rewrite (proj1 (Hrl row Hrow)). unfold zlen in Hjb. lia. }
        rewrite Z2Nat.id in Eids by lia. cbn [mapM]. rewrite Eids. cbn [bind].
        inversion Hids as [|? a ? ids' Ha Hids']; subst.
        destruct (take_total (a :: ids')) as (ps & Eps & Hps).
        { intros c [<-|Hc]; [apply Hin; cbn [List.concat]; apply in_or_app; left; apply nth_error_In in Ha; exact Ha|].
          apply In_nth_error in Hc. destruct Hc as (k & Hk). assert (Hkr : exists row, nth_error rows k = Some row). { destruct (nth_error rows k) as [row|] eqn:E'; [eauto|]. apply nth_error_None in E'. pose proof (Forall2_length' _ _ _ Hids'). assert (Hkn : nth_error ids' k <> None) by congruence. apply nth_error_Some in Hkn. lia. }
          destruct Hkr as (row & Hrow). destruct (VtkProofs.Forall2_nth _ _ _ _ _ Hids' Hrow) as (c' & Hc' & Hx). assert (c' = c) by congruence. subst c'. apply nth_error_In in Hrow. apply (proj2 (Hrl row Hrow)). apply nth_error_In in Hx. exact Hx. }
        rewrite Eps. cbn [bind]. rewrite E. cbn [bind]. eexists. split; [reflexivity|]. cbn [existsb]. rewrite Hs, Bool.orb_false_r.
        inversion Hps as [|? q ? ps' Hq Hps']; subst. apply (Hspread a q ps' Hq). apply Forall_forall. intros p Hp. apply In_nth_error in Hp. destruct Hp as (k & Hk).
        assert (Hc : exists c, nth_error ids' k = Some c /\ xat c p). { destruct (nth_error ids' k) as [c|] eqn:E'; [|apply nth_error_None in E'; pose proof (Forall2_length' _ _ _ Hps'); assert (Hkn : nth_error ps' k <> None) by congruence; apply nth_error_Some in Hkn; lia].
          destruct (VtkProofs.Forall2_nth _ _ _ _ _ Hps' E') as (p' & Hp' & Hx). exists c. split; [reflexivity|congruence]. }
        destruct Hc as (c & Hc & Hcp). assert (Hkr : exists row, nth_error rows k = Some row). { destruct (nth_error rows k) as [row|] eqn:E'; [eauto|]. apply nth_error_None in E'. pose proof (Forall2_length' _ _ _ Hids'). assert (Hkn : nth_error ids' k <> None) by congruence. apply nth_error_Some in Hkn. lia. }
        destruct Hkr as (row & Hrow). destruct (VtkProofs.Forall2_nth _ _ _ _ _ Hids' Hrow) as (c' & Hc' & Hx). assert (c' = c) by congruence. subst c'.
        destruct (VtkProofs.Forall2_nth _ _ _ _ _ H3 Hrow) as (pl & _ & _ & Hclose). destruct (Hclose _ _ _ Ha Hx) as (q' & p' & Hq' & Hp' & Hd). rewrite (xat_fun _ _ _ Hq Hq'), (xat_fun _ _ _ Hcp Hp'). exact Hd. }
      apply Hall. intros j Hj. apply in_zrange in Hj. exact Hj. }
    destruct Hcols as (cols & -> & Hs). cbn [bind]. rewrite Hs. eexists. reflexivity.
  Qed.
End Match.
