(** * Reading, writing and reading again: what does not change any more (C40). *)
From Coq Require Import ZArith List Bool String Lia Permutation.
From Verif Require Import Py PyFacts Data Conn ConnSpec ConnProofs CsrProofs MergeProofs Mesh MeshSpec MeshProofs Ic3Bytes Ic3BytesProofs Ic3 Ic3HeaderSpec Ic3HeaderProofs
  Ic3FuelProofs Ic3FileSpec Ic3FileProofs Ic3WriteProofs Ic3PartsProofs Ic3CutProofs Ic3BodyProofs Ic3ReadProofs Ic3VarProofs Ic3RoundProofs Ic3RoundSpec Ic3MeshProofs Ic3FileThm
  Ic3OkSpec Ic3OkProofs.

Lemma dset_all_append {V} (l : list (string * V)) : forall d, NoDup (List.map fst (d ++ l)) -> dset_all d l = d ++ l.
Proof.
  induction l as [| (k, x) l IH]; intros d N; [rewrite app_nil_r; reflexivity |].
  change (dset_all d ((k, x) :: l)) with (dset_all (dset String.eqb k x d) l). rewrite (dset_notin _ seqb_eq).
  - rewrite IH; rewrite <- app_assoc; [reflexivity | exact N].
  - unfold dkeys. rewrite map_app in N. cbn [List.map fst] in N. apply NoDup_remove_2 in N. intros I. apply N. apply in_or_app. left. exact I.
Qed.
Lemma dset_all_same {V} (l : list (string * V)) : NoDup (List.map fst l) -> dset_all [] l = l.
Proof. apply (dset_all_append l []). Qed.

Definition sizes_of := array_sizes (fun n => n) (fun p => Ok p).

(** ** Arrays that come back unchanged *)
Definition kept_scalar (v : version) (n : Z) (a : array) : Prop := a_shape a = [n] /\ zlen (a_val a) = n /\ (a_int a = true -> v = V3 /\ Forall int64 (a_val a)) /\ (a_int a = false -> Forall pattern (a_val a)).
Definition kept_block (n k : Z) (sh : list Z) (a : array) : Prop := a_shape a = n :: sh /\ zlen (a_val a) = n * k /\ a_int a = false /\ Forall pattern (a_val a).
Record kept_data (v : version) (n : Z) (l : list (string * array)) : Prop := {
  kd_split : exists ss vs ts, l = (ss ++ vs) ++ ts /\ Forall (fun x => kept_scalar v n (snd x)) ss /\
             Forall (fun x => kept_block n 3 [3] (snd x)) vs /\ Forall (fun x => kept_block n 9 [3; 3] (snd x)) ts;
  kd_names : Forall (fun k => good_name k /\ ~ deof k) (List.map fst l);
  kd_keys : NoDup (List.map fst l) }.

Section Fix.
  Context (i2d : Z -> Z) (f2i : Z -> res Z).

  Lemma scalar_same v n a : kept_scalar v n a -> scalar_back i2d v (a_size a) a = a.
  Proof.
    intros (S & L & I & _). unfold a_size. rewrite L. destruct a as [sh b vals]. cbn [a_shape a_int a_val] in *. subst sh.
    unfold scalar_back, kept_int, array_doubles. cbn [a_int a_val]. destruct v; destruct b; try reflexivity. destruct (I eq_refl). discriminate.
  Qed.
  Lemma block_same n k sh a : kept_block n k sh a -> Arr (n :: sh) false (array_doubles i2d a) = a.
  Proof. intros (S & L & I & _). destruct a as [sh' b vals]. cbn in *. subst. reflexivity. Qed.

  Lemma filter_all {A} (p : A -> bool) l : Forall (fun x => p x = true) l -> filter p l = l.
  Proof. induction 1 as [| x l H F IH]; [reflexivity |]. cbn. rewrite H, IH. reflexivity. Qed.
  Lemma filter_none {A} (p : A -> bool) l : Forall (fun x => p x = false) l -> filter p l = [].
  Proof. induction 1 as [| x l H F IH]; [reflexivity |]. cbn. rewrite H, IH. reflexivity. Qed.
  Lemma map_same {A} (g : A -> A) l : Forall (fun x => g x = x) l -> List.map g l = l.
  Proof. induction 1 as [| x l H F IH]; [reflexivity |]. cbn. rewrite H, IH. reflexivity. Qed.

  Lemma kept_tests v n a : 1 <= n ->
    (kept_scalar v n a -> is_scalar a = true /\ is_dim 2 a = false /\ is_dim 3 a = false) /\
    (kept_block n 3 [3] a -> is_scalar a = false /\ is_dim 2 a = true /\ is_dim 3 a = false) /\
    (kept_block n 9 [3; 3] a -> is_scalar a = false /\ is_dim 2 a = false /\ is_dim 3 a = true).
  Proof.
    intros N. unfold is_scalar, is_dim, a_size. split; [| split].
    - intros (-> & -> & _). cbn. rewrite Z.eqb_refl. auto.
    - intros (-> & -> & _). cbn [List.length Nat.eqb]. split; [apply Z.eqb_neq; lia | auto].
    - intros (-> & -> & _). cbn [List.length Nat.eqb]. split; [apply Z.eqb_neq; lia | auto].
  Qed.
  Lemma kept_filters v n l : 1 <= n -> kept_data v n l -> exists ss vs ts, l = (ss ++ vs) ++ ts /\
    Forall (fun x => kept_scalar v n (snd x)) ss /\ Forall (fun x => kept_block n 3 [3] (snd x)) vs /\ Forall (fun x => kept_block n 9 [3; 3] (snd x)) ts /\
    filter (fun '((_, a) : string * array) => is_scalar a) l = ss /\ filter (fun '((_, a) : string * array) => is_dim 2 a) l = vs /\
    filter (fun '((_, a) : string * array) => is_dim 3 a) l = ts.
  Proof.
    intros N K. destruct (kd_split _ _ _ K) as (ss & vs & ts & -> & FS & FV & FT). exists ss, vs, ts. split; [reflexivity |].
    split; [exact FS |]. split; [exact FV |]. split; [exact FT |]. rewrite !filter_app.
    assert (TS := fun (x : string * array) (H : kept_scalar v n (snd x)) => proj1 (kept_tests v n (snd x) N) H).
    assert (TV := fun (x : string * array) H => proj1 (proj2 (kept_tests v n (snd x) N)) H).
    assert (TT := fun (x : string * array) H => proj2 (proj2 (kept_tests v n (snd x) N)) H).
    rewrite (filter_all _ ss), (filter_none _ vs), (filter_none _ ts); [rewrite !app_nil_r; split; [reflexivity |] | | |].
    2: { eapply Forall_impl; [| exact FT]. intros (k, a) H. apply (TT _ H). }
    2: { eapply Forall_impl; [| exact FV]. intros (k, a) H. apply (TV _ H). }
    2: { eapply Forall_impl; [| exact FS]. intros (k, a) H. apply (TS (k, a) H). }
    rewrite (filter_none _ ss), (filter_all _ vs), (filter_none _ ts); [rewrite !app_nil_r; split; [reflexivity |] | | |].
    2: { eapply Forall_impl; [| exact FT]. intros (k, a) H. apply (TT _ H). }
    2: { eapply Forall_impl; [| exact FV]. intros (k, a) H. apply (TV _ H). }
    2: { eapply Forall_impl; [| exact FS]. intros (k, a) H. apply (TS (k, a) H). }
    rewrite (filter_none _ ss), (filter_none _ vs), (filter_all _ ts); [reflexivity | | |].
    - eapply Forall_impl; [| exact FT]. intros (k, a) H. apply (TT _ H).
    - eapply Forall_impl; [| exact FV]. intros (k, a) H. apply (TV _ H).
    - eapply Forall_impl; [| exact FS]. intros (k, a) H. apply (TS (k, a) H).
  Qed.
  Lemma names_kept v n l : kept_data v n l -> forall k a, In (k, a) l -> cut_name k = k.
  Proof.
    intros K k a I. apply good_cut. assert (G := kd_names _ _ _ K). rewrite Forall_forall in G. apply G. apply in_map_iff. exists (k, a). auto.
  Qed.
  Lemma kept_cells v w l : 1 <= w_tot v w -> kept_data v (w_tot v w) l -> cell_list i2d v w l = l.
  Proof.
    intros N K. destruct (kept_filters _ _ _ N K) as (ss & vs & ts & E & FS & FV & FT & E1 & E2 & E3). assert (NK := names_kept _ _ _ K).
    unfold cell_list, scals, vecs, tenss. rewrite E1, E2, E3. rewrite E in NK.
    assert (I1 : forall k a, In (k, a) ss -> cut_name k = k) by (intros k a I; apply (NK k a); apply in_or_app; left; apply in_or_app; left; exact I).
    assert (I2 : forall k a, In (k, a) vs -> cut_name k = k) by (intros k a I; apply (NK k a); apply in_or_app; left; apply in_or_app; right; exact I).
    assert (I3 : forall k a, In (k, a) ts -> cut_name k = k) by (intros k a I; apply (NK k a); apply in_or_app; right; exact I).
    rewrite !map_same; [symmetry; exact E | | |]; apply Forall_forall; intros (k, a) I.
    - rewrite Forall_forall in FT. unfold tens_write. cbn [fst snd]. rewrite (I3 k a I). exact (f_equal (pair k) (block_same _ _ _ _ (FT _ I))).
    - rewrite Forall_forall in FV. unfold vec_write. cbn [fst snd]. rewrite (I2 k a I). exact (f_equal (pair k) (block_same _ _ _ _ (FV _ I))).
    - rewrite Forall_forall in FS. unfold scal_write. cbn [fst snd]. rewrite (I1 k a I). exact (f_equal (pair k) (scalar_same _ _ _ (FS _ I))).
  Qed.
  Lemma kept_nodes v n l : 1 <= n -> Forall (fun x => kept_scalar v n (snd x)) l -> Forall (fun k => good_name k /\ ~ deof k) (List.map fst l) -> scals i2d v l = l.
  Proof.
    intros N F G. unfold scals. rewrite filter_all.
    - apply map_same. apply Forall_forall. intros (k, a) I. rewrite Forall_forall in F, G. unfold scal_write. cbn [fst snd].
      rewrite good_cut by (apply G; apply in_map_iff; exists (k, a); auto). exact (f_equal (pair k) (scalar_same _ _ _ (F _ I))).
    - eapply Forall_impl; [| exact F]. intros (k, a) K. apply (proj1 (kept_tests v n a N) K).
  Qed.

  (** ** The data read from a file is of that kind *)
  Lemma doubles_patterns a : (forall n, pattern (i2d n)) -> array_typed a -> Forall pattern (array_doubles i2d a).
  Proof.
    intros P (_ & T). unfold array_doubles. destruct (a_int a); [| apply T; reflexivity]. apply Forall_forall. intros x I. apply in_map_iff in I. destruct I as (n & <- & _). apply P.
  Qed.
  Lemma doubles_length a : zlen (array_doubles i2d a) = zlen (a_val a).
  Proof. unfold array_doubles. destruct (a_int a); [apply zlen_map | reflexivity]. Qed.
  Lemma scalar_kept v n a : (forall n, pattern (i2d n)) -> array_typed a -> (a_int a = true -> Forall int64 (a_val a)) -> a_size a = n -> kept_scalar v n (scalar_back i2d v n a).
  Proof.
    intros P T I S. unfold scalar_back, kept_scalar, a_size in *. destruct (kept_int v a) eqn:K; cbn [a_shape a_val a_int].
    - unfold kept_int in K. destruct v; [discriminate |]. repeat split; auto. discriminate.
    - split; [reflexivity |]. split; [rewrite doubles_length; exact S |]. split; [discriminate |]. intros _. apply doubles_patterns; assumption.
  Qed.

  Section Data.
    Context (v : version) (w : wstate) (d : dict string array).
    Hypothesis P : forall n, pattern (i2d n).
    Hypothesis TD : data_typed d.
    Hypothesis ND : NoDup (List.map fst d).
    Hypothesis GN : Forall (fun k => good_name k /\ ~ deof k) (List.map fst d).

    Lemma all_good : Forall good_name (List.map fst d).
    Proof using GN. eapply Forall_impl; [| exact GN]. intros k (G & _). exact G. Qed.
    Lemma nodup_filter (p q : string * array -> bool) : (forall x, In x d -> p x = true -> q x = true -> False) ->
      forall k, In k (List.map fst (filter p d)) -> In k (List.map fst (filter q d)) -> False.
    Proof using ND.
      intros H k I J. apply in_map_iff in I, J. destruct I as ((k1, a1) & E1 & I). destruct J as ((k2, a2) & E2 & J). cbn in E1, E2. subst k1 k2.
      apply filter_In in I, J. destruct I as (I & PI). destruct J as (J & PJ). assert (E := fst_unique d k a1 a2 ND I J). subst a2. exact (H (k, a1) I PI PJ).
    Qed.
    Lemma keys_scals : List.map fst (scals i2d v d) = List.map fst (filter (fun '(_, a) => is_scalar a) d).
    Proof using GN.
      unfold scals. rewrite map_map. apply map_ext_in. intros (k, a) I. cbn. apply filter_In in I. apply good_cut. assert (G := all_good). rewrite Forall_forall in G. apply G. apply in_map_iff. exists (k, a). tauto.
    Qed.
    Lemma keys_vecs : List.map fst (vecs i2d v w d) = List.map fst (filter (fun '(_, a) => is_dim 2 a) d).
    Proof using GN.
      unfold vecs. rewrite map_map. apply map_ext_in. intros (k, a) I. cbn. apply filter_In in I. apply good_cut. assert (G := all_good). rewrite Forall_forall in G. apply G. apply in_map_iff. exists (k, a). tauto.
    Qed.
    Lemma keys_tenss : List.map fst (tenss i2d v w d) = List.map fst (filter (fun '(_, a) => is_dim 3 a) d).
    Proof using GN.
      unfold tenss. rewrite map_map. apply map_ext_in. intros (k, a) I. cbn. apply filter_In in I. apply good_cut. assert (G := all_good). rewrite Forall_forall in G. apply G. apply in_map_iff. exists (k, a). tauto.
    Qed.
    Lemma nodup_sub (p : string * array -> bool) : NoDup (List.map fst (filter p d)).
    Proof using ND.
      revert ND. clear. induction d as [| x l IH]; intros N; [constructor |]. inversion N; subst. cbn. destruct (p x); [| auto]. cbn. constructor; [| auto].
      intros I. apply H1. apply in_map_iff in I. destruct I as (y & E & I). apply filter_In in I. apply in_map_iff. exists y. tauto.
    Qed.

    Lemma cells_kept : data_complete (w_tot v w) d -> 1 <= w_tot v w -> kept_data v (w_tot v w) (cell_list i2d v w d).
    Proof using P TD ND GN.
      intros DC N. assert (DC' : forall k a, In (k, a) d -> array_typed a /\ (a_shape a = [w_tot v w] \/ a_shape a = [w_tot v w; 3] \/ a_shape a = [w_tot v w; 3; 3]) /\ (a_int a = true -> Forall int64 (a_val a))).
      { intros k a I. unfold data_complete in DC. rewrite Forall_forall in DC. specialize (DC (k, a) I). split; [exact (d_typed d TD k a I) | exact DC]. }
      constructor.
      - exists (scals i2d v d), (vecs i2d v w d), (tenss i2d v w d). split; [reflexivity |]. split; [| split]; apply Forall_forall; intros (k, x) I; cbn [snd].
        + apply (in_scals i2d v d all_good) in I. destruct I as (a & I & S & ->). destruct (DC' k a I) as (T & SH & I64).
          destruct (sizes_of a T) as (S1 & S2 & S3). assert (AS : a_size a = w_tot v w).
          { unfold is_scalar in S. destruct SH as [SH | [SH | SH]]; rewrite SH in S; [exact (S1 _ SH) | apply Z.eqb_eq in S; exact S | apply Z.eqb_eq in S; exact S]. }
          rewrite AS. apply scalar_kept; assumption.
        + apply (in_vecs i2d v w d all_good) in I. destruct I as (a & I & S & ->). destruct (DC' k a I) as (T & SH & I64). destruct (sizes_of a T) as (S1 & S2 & S3).
          unfold is_dim in S. destruct SH as [SH | [SH | SH]]; rewrite SH in S; try discriminate.
          split; [reflexivity |]. cbn [a_val a_int]. split; [rewrite doubles_length; exact (S2 _ SH) |]. split; [reflexivity | apply doubles_patterns; assumption].
        + apply (in_tenss i2d v w d all_good) in I. destruct I as (a & I & S & ->). destruct (DC' k a I) as (T & SH & I64). destruct (sizes_of a T) as (S1 & S2 & S3).
          unfold is_dim in S. destruct SH as [SH | [SH | SH]]; rewrite SH in S; try discriminate.
          split; [reflexivity |]. cbn [a_val a_int]. split; [rewrite doubles_length; exact (S3 _ SH) |]. split; [reflexivity | apply doubles_patterns; assumption].
      - apply Forall_forall. intros k I. apply (cell_list_keys i2d v w d all_good) in I. rewrite Forall_forall in GN. exact (GN k I).
      - assert (E1 : forall x, In x d -> (let '(_, a) := x in is_scalar a) = true -> (let '(_, a) := x in is_dim 2 a) = true -> False).
        { intros (k, a) I S D. destruct (DC' k a I) as (T & SH & _). destruct (sizes_of a T) as (S1 & S2 & S3). unfold is_dim, is_scalar in *.
          destruct SH as [SH | [SH | SH]]; rewrite SH in S, D; try discriminate. apply Z.eqb_eq in S. rewrite (S2 _ SH) in S. lia. }
        assert (E2 : forall x, In x d -> (let '(_, a) := x in is_scalar a) = true -> (let '(_, a) := x in is_dim 3 a) = true -> False).
        { intros (k, a) I S D. destruct (DC' k a I) as (T & SH & _). destruct (sizes_of a T) as (S1 & S2 & S3). unfold is_dim, is_scalar in *.
          destruct SH as [SH | [SH | SH]]; rewrite SH in S, D; try discriminate. apply Z.eqb_eq in S. rewrite (S3 _ SH) in S. lia. }
        assert (E3 : forall x : string * array, In x d -> (let '(_, a) := x in is_dim 2 a) = true -> (let '(_, a) := x in is_dim 3 a) = true -> False).
        { intros (k, a) I S D. unfold is_dim in *. apply Nat.eqb_eq in S, D. lia. }
        unfold cell_list. rewrite !map_app, keys_scals, keys_vecs, keys_tenss. apply NoDup_app. split; [apply NoDup_app; split; [apply nodup_sub |]; split; [apply nodup_sub |] | split; [apply nodup_sub |]].
        + intros k I J. exact (nodup_filter _ _ E1 k I J).
        + intros k I J. apply in_app_or in I. destruct I as [I | I]; [exact (nodup_filter _ _ E2 k I J) | exact (nodup_filter _ _ E3 k I J)].
    Qed.
    Lemma nodes_kept n : data_complete n d -> 1 <= n ->
      Forall (fun x => kept_scalar v n (snd x)) (scals i2d v d) /\ Forall (fun k => good_name k /\ ~ deof k) (List.map fst (scals i2d v d)) /\ NoDup (List.map fst (scals i2d v d)).
    Proof using P TD ND GN.
      intros DC N. split; [| split].
      - apply Forall_forall. intros (k, x) I. cbn [snd]. apply (in_scals i2d v d all_good) in I. destruct I as (a & I & S & ->).
        unfold data_complete in DC. rewrite Forall_forall in DC. destruct (DC (k, a) I) as (SH & I64). assert (T := d_typed d TD k a I).
        destruct (sizes_of a T) as (S1 & S2 & S3). assert (AS : a_size a = n).
        { unfold is_scalar in S. destruct SH as [SH | [SH | SH]]; rewrite SH in S; [exact (S1 _ SH) | apply Z.eqb_eq in S; exact S | apply Z.eqb_eq in S; exact S]. }
        rewrite AS. apply scalar_kept; assumption.
      - apply Forall_forall. intros k I. apply (scals_keys i2d v d all_good) in I. rewrite Forall_forall in GN. exact (GN k I).
      - rewrite keys_scals. apply nodup_sub.
    Qed.
  End Data.

  (** ** Meshes as the reader builds them *)
  Record shaped (v : version) (fm : fmesh) (ls rows : list (list Z)) (cv no : Z) (x y z : list Z) (con : econn) (zs : dict string (mark Z))
      (n : Z) (lc ln : list (string * array)) : Prop := {
    sp_mesh : fm_mesh fm = Mesh Z cv no (zlen ls) None [("mixed"%string, FaceSet con (Some (Some (Mat (Some 2%nat) rows))))]
                [("x"%string, x); ("y"%string, y); ("z"%string, z)]
                (zs ++ [("internal-domain"%string, int_mark (last_boco zs + 1) (zlen ls - 1))]);
    sp_con : ec_import_csr ec_empty (csr_make ls) = Ok con;
    sp_marks : List.map zone_back zs = zs;
    sp_types : Forall (fun '(_, b) => mk_type b <> Some "internal"%string /\ exists lo hi, mk_index b = Some (ILrange lo hi)) zs;
    sp_part : exists npart icv, fm_part fm = Some (Some (npart, Some icv));
    sp_cells : fm_cells fm = FSet (adds n lc cells0) /\ 1 <= n /\ (v = V2 -> n = 1) /\ kept_data v (n * cv) lc;
    sp_nodes : fm_nodes fm = FSet (adds 0 ln nodes0) /\ Forall (fun x => kept_scalar v no (snd x)) ln /\
               Forall (fun k => good_name k /\ ~ deof k) (List.map fst ln) /\ NoDup (List.map fst ln);
    sp_step : exists k, dget String.eqb "step" (fm_params fm) = Some (SNum (NInt k));
    sp_dt : exists p, dget String.eqb "dt" (fm_params fm) = Some (SNum (NFlt p));
    sp_time : exists p, dget String.eqb "time" (fm_params fm) = Some (SNum (NFlt p));
    sp_wgt : dget String.eqb "wgt" (fm_params fm) = Some (SWgt []) }.

  Lemma zones_all zs hi lo : Forall (fun '(_, b) => mk_type b <> Some "internal"%string /\ exists lo hi, mk_index b = Some (ILrange lo hi)) zs ->
    filter (fun '((_, b) : string * mark Z) => match mk_type b with Some t => negb (String.eqb t "internal") | None => true end) (zs ++ [("internal-domain"%string, int_mark lo hi)]) = zs.
  Proof.
    intros F. rewrite filter_app. cbn [filter int_mark mk_type]. change (negb (String.eqb "internal" "internal")) with false. cbv iota. rewrite app_nil_r.
    apply filter_all. eapply Forall_impl; [| exact F]. intros (k, b) (H & _). destruct (mk_type b) as [t |]; [| reflexivity].
    apply negb_true_iff. apply String.eqb_neq. congruence.
  Qed.
  Lemma shaped_zones v fm ls rows cv no x y z con zs n lc ln : shaped v fm ls rows cv no x y z con zs n lc ln -> zone_marks (fm_mesh fm) = zs.
  Proof. intros S. unfold zone_marks. rewrite (sp_mesh _ _ _ _ _ _ _ _ _ _ _ _ _ _ S). cbn [me_bocos]. apply zones_all. exact (sp_types _ _ _ _ _ _ _ _ _ _ _ _ _ _ S). Qed.

  Lemma shaped_prepare v fm ls rows cv no x y z con zs n lc ln tbl enum : shaped v fm ls rows cv no x y z con zs n lc ln ->
    prepare_mesh tbl enum (fm_mesh fm) = (Ok tt, fm_mesh fm).
  Proof.
    intros S. rewrite (sp_mesh _ _ _ _ _ _ _ _ _ _ _ _ _ _ S). unfold prepare_mesh. cbn [me_faces me_bocos].
    assert (X : existsb (fun '((_, b) : string * mark Z) => nodebased b) (zs ++ [("internal-domain"%string, int_mark (last_boco zs + 1) (zlen ls - 1))]) = false).
    { rewrite existsb_app. cbn [existsb]. rewrite !orb_false_r. assert (M := sp_marks _ _ _ _ _ _ _ _ _ _ _ _ _ _ S). clear S. revert M.
      induction zs as [| (k, b) l IH]; intros M; [reflexivity |]. cbn [existsb]. cbn [List.map] in M. injection M as M1 M2. rewrite IH by exact M2.
      rewrite <- M1. reflexivity. }
    rewrite X. cbn [dmem dget String.eqb Ascii.eqb Bool.eqb].
    assert (Y : any_list (zs ++ [("internal-domain"%string, int_mark (last_boco zs + 1) (zlen ls - 1))]) = Ok false).
    { assert (F := sp_types _ _ _ _ _ _ _ _ _ _ _ _ _ _ S). clear S X. unfold any_list.
      assert (Q : mapM (fun '((_, b) : string * mark Z) => il <- or_err AttributeError (mk_index b) ;; Ok (list_type il)) (zs ++ [("internal-domain"%string, int_mark (last_boco zs + 1) (zlen ls - 1))])
                  = Ok (List.map (fun _ => false) zs ++ [false])).
      { generalize (last_boco zs + 1). intros lo. revert F. induction zs as [| (k, b) l IH]; intros F; [reflexivity |]. apply Forall_cons_iff in F. destruct F as ((_ & a1 & a2 & E) & F').
        cbn [app mapM List.map]. rewrite E. cbn [or_err bind list_type]. rewrite IH by exact F'. reflexivity. }
      rewrite Q. cbn [bind]. f_equal. rewrite existsb_app. cbn [existsb]. rewrite orb_false_r. clear. induction zs as [| ? l IH]; [reflexivity | exact IH]. }
    unfold dmem. cbn [me_faces me_bocos dget String.eqb Ascii.eqb Bool.eqb]. rewrite Y. reflexivity.
  Qed.

  Lemma adds_same n m l : (l = [] \/ n = m) -> adds n l cells0 = adds m l cells0.
  Proof. intros [-> | ->]; reflexivity. Qed.
  Lemma adds_ndof n l : 1 <= n -> ds_ndof (adds n l cells0) = match l with [] => 1 | _ => n end.
  Proof.
    intros N. destruct l as [| p l]; [reflexivity |]. destruct (adds_shape n (p :: l) cells0) as (_ & ->); [discriminate |].
    cbn [ds_ndof cells0]. destruct (1 <? n) eqn:E; [reflexivity |]. apply Z.ltb_ge in E. lia.
  Qed.

  (** Writing and reading such a mesh changes nothing that matters. *)
  Lemma shaped_again v o fm ls rows cv no x y z con zs n lc ln w g : (forall n, pattern (i2d n)) -> shaped v fm ls rows cv no x y z con zs n lc ln ->
    writable f2i v fm ls rows -> located fm ls -> writer_state fm = Ok w -> write_data i2d f2i v o w = Ok g ->
    exists fm2, (forall integrity, read_mesh integrity g = Ok fm2) /\ fm_mesh fm2 = fm_mesh fm /\ writer_state fm2 = Ok w.
  Proof.
    intros PT S WR LOC W WD. assert (M := wr_file _ _ _ _ _ WR). assert (T := wr_typed _ _ _ _ _ WR).
    destruct (writer_state_ok fm w W) as (x0 & y0 & z0 & zf & f2e & NC0 & ST0 & LC & WF & E1 & E2 & E3 & E4 & E5 & E6 & E7 & E8 & E9 & E10 & E11 & E12 & E13 & E14).
    assert (LOC' : fd_items (w_cells w) = [] \/ (w_cv w <> w_no w /\ w_cv w <> w_fa w)).
    { rewrite E14, E3, E1, E2, (fi_nface _ _ _ _ M). exact LOC. }
    destruct (read_mesh_back i2d f2i v o fm ls rows w g PT T M) as (x1 & y1 & z1 & con1 & mt & c & NC & IC & CW & CB & CP & MR & FE & SZ & ST & RM); [destruct LOC'; auto | exact W | exact WD |].
    assert (MS := sp_mesh _ _ _ _ _ _ _ _ _ _ _ _ _ _ S). assert (ZM := shaped_zones _ _ _ _ _ _ _ _ _ _ _ _ _ _ S).
    rewrite (sp_con _ _ _ _ _ _ _ _ _ _ _ _ _ _ S) in IC. injection IC as <-.
    assert (XYZ : (x1, y1, z1) = (x, y, z)). { rewrite MS in NC. cbn in NC. congruence. } injection XYZ as -> -> ->.
    assert (CVE : w_cv w = cv) by (rewrite E3, MS; reflexivity). assert (NOE : w_no w = no) by (rewrite E1, MS; reflexivity). assert (FAE : w_fa w = zlen ls) by (rewrite E2, MS; reflexivity).
    assert (ZE : w_bocos w = zs) by (rewrite E7; exact ZM).
    destruct (sp_cells _ _ _ _ _ _ _ _ _ _ _ _ _ _ S) as (CE & N1 & NV & KC). destruct (sp_nodes _ _ _ _ _ _ _ _ _ _ _ _ _ _ S) as (NE & KN & GN & UN).
    assert (CI : fd_items (w_cells w) = lc). { rewrite E14, CE. cbn [fd_items]. rewrite adds_data. apply dset_all_same. exact (kd_keys _ _ _ KC). }
    assert (NI : fd_items (w_nodes w) = ln). { rewrite E13, NE. cbn [fd_items]. rewrite adds_data. apply dset_all_same. exact UN. }
    assert (CV1 : 1 <= cv). { rewrite <- CVE, E3. apply M. } assert (NO1 : 1 <= no). { rewrite <- NOE, E1. apply M. }
    assert (WN : w_ndof w = match lc with [] => 1 | _ => n end). { unfold w_ndof. rewrite E14, CE. apply adds_ndof. exact N1. }
    assert (WN1 : 1 <= w_ndof w). { rewrite WN. destruct lc; lia. }
    assert (EV := exp_vars_eq i2d v w WN1).
    assert (ND : lc = [] \/ nd v w = n).
    { destruct lc as [| p l]; [left; reflexivity | right]. unfold nd, ndof_num. destruct v; cbn [version_number].
      - change (2 <? 3) with true. cbv iota. symmetry. apply NV. reflexivity.
      - change (3 <? 3) with false. cbv iota. rewrite WN. replace (n =? 0) with false by (symmetry; apply Z.eqb_neq; lia). reflexivity. }
    assert (CL : cell_list i2d v w lc = lc).
    { destruct ND as [-> | ND]; [reflexivity |]. assert (TE : w_tot v w = n * cv) by (rewrite <- (nd_tot v w WN1), ND, CVE; reflexivity).
      apply kept_cells; rewrite TE; [| exact KC]. replace 1 with (1 * 1) by reflexivity. apply Z.mul_le_mono_nonneg; lia. }
    assert (NL : scals i2d v ln = ln) by (apply (kept_nodes v no); assumption).
    assert (CELLS : FSet (fst (exp_vars i2d v w)) = fm_cells fm).
    { rewrite EV. cbn [fst]. rewrite CE. f_equal. rewrite <- (adds_same (nd v w) n lc ND). rewrite CI in LOC' |- *. destruct LOC' as [LE | (L1 & L2)].
      - rewrite LE. destruct ((w_cv w =? w_no w) || (w_cv w =? w_fa w)); reflexivity.
      - apply Z.eqb_neq in L1. apply Z.eqb_neq in L2. rewrite L1, L2. cbn [orb]. f_equal. exact CL. }
    assert (NODES : FSet (snd (exp_vars i2d v w)) = fm_nodes fm).
    { rewrite EV. cbn [snd]. rewrite NE. f_equal. rewrite NI. rewrite CI in LOC' |- *. destruct LOC' as [LE | (L1 & _)].
      - rewrite LE. destruct (w_cv w =? w_no w); cbn [scals filter List.map]; rewrite app_nil_r, NL; reflexivity.
      - apply Z.eqb_neq in L1. rewrite L1, app_nil_r, NL. reflexivity. }
    assert (G1 : forall k b, In (k, b) zs -> cut_name k = k).
    { intros k b I. apply good_cut. assert (G := fi_names _ _ _ _ M). rewrite Forall_forall in G. apply G. unfold mesh_names. apply in_or_app. left.
      rewrite ZM. apply in_map_iff. exists (k, b). auto. }
    assert (MESH : fm_mesh (mesh_back i2d f2i v x y z ls con mt c) = fm_mesh fm).
    { rewrite MS. unfold mesh_back. cbn [fm_mesh]. rewrite CVE, NOE, FAE, MR, ZE. f_equal. rewrite map_app. f_equal.
      transitivity (List.map zone_back zs); [| exact (sp_marks _ _ _ _ _ _ _ _ _ _ _ _ _ _ S)]. rewrite map_map. apply map_ext_in. intros (k, b) I.
      unfold mark_back, zone_back. cbn [fst snd mk_name]. rewrite (G1 k b I). reflexivity. }
    assert (PART : fm_part (mesh_back i2d f2i v x y z ls con mt c) = fm_part fm).
    { unfold mesh_back. cbn [fm_part]. destruct (sp_part _ _ _ _ _ _ _ _ _ _ _ _ _ _ S) as (np & icv & PE). assert (Q := c_part_ok _ _ _ c). rewrite E8, PE in Q. rewrite PE. congruence. }
    exists (mesh_back i2d f2i v x y z ls con mt c). split; [exact RM |]. split; [exact MESH |].
    rewrite <- W. unfold writer_state. rewrite MESH, PART. unfold mesh_back. cbn [fm_params fm_nodes fm_cells]. rewrite CELLS, NODES.
    assert (GW : Forall good_name (wgt_names (w_wgt w))).
    { rewrite E12. unfold param. rewrite (sp_wgt _ _ _ _ _ _ _ _ _ _ _ _ _ _ S). constructor. }
    destruct (sim_get i2d f2i w c (params_of (expected i2d f2i Little v ls c)) GW) as (I1 & I2 & I3 & I4).
    destruct (sp_step _ _ _ _ _ _ _ _ _ _ _ _ _ _ S) as (k1 & S1). destruct (sp_dt _ _ _ _ _ _ _ _ _ _ _ _ _ _ S) as (k2 & S2). destruct (sp_time _ _ _ _ _ _ _ _ _ _ _ _ _ _ S) as (k3 & S3).
    assert (Q1 : c_step c = k1). { assert (Q := c_step_ok _ _ _ c). rewrite E9 in Q. unfold param in Q. rewrite S1 in Q. cbn in Q. congruence. }
    assert (Q2 : c_dt c = k2). { assert (Q := c_dt_ok _ _ _ c). rewrite E10 in Q. unfold param in Q. rewrite S2 in Q. cbn in Q. congruence. }
    assert (Q3 : c_time c = k3). { assert (Q := c_time_ok _ _ _ c). rewrite E11 in Q. unfold param in Q. rewrite S3 in Q. cbn in Q. congruence. }
    unfold param. rewrite I1, I2, I3, I4, S1, S2, S3, (sp_wgt _ _ _ _ _ _ _ _ _ _ _ _ _ _ S), Q1, Q2, Q3. reflexivity.
  Qed.

  (** ** The first reading gives such a mesh *)
  Lemma double_pattern x p : (forall n, pattern (i2d n)) -> sval_typed x -> to_double i2d x = Ok p -> pattern p.
  Proof. intros P T H. destruct x as [[k | q] |]; cbn in *; [injection H as <-; apply P | injection H as <-; exact T | discriminate]. Qed.
  Lemma param_typed d k x : Forall (fun '((_, v) : string * sval) => sval_typed v) d -> sval_typed x -> sval_typed (param d k x).
  Proof.
    intros F T. unfold param. destruct (dget String.eqb k d) as [v |] eqn:E; [| exact T]. apply dget_in in E. rewrite Forall_forall in F. exact (F (k, v) E).
  Qed.
  Lemma zone_back_twice kb : match mk_perio (snd kb) with Some (Some l) => zlen l <= 16 | _ => True end -> zone_back (zone_back kb) = zone_back kb.
  Proof.
    intros L. unfold zone_back. cbn [fst snd mk_type mk_index mk_perio]. do 4 f_equal.
    assert (Q : List.length (match mk_perio (snd kb) with Some (Some l) => l | _ => [] end ++ repeat 0 (16 - List.length (match mk_perio (snd kb) with Some (Some l) => l | _ => [] end))) = 16%nat).
    { rewrite app_length, repeat_length. destruct (mk_perio (snd kb)) as [[l |] |]; unfold zlen in L; cbn [List.length]; lia. }
    rewrite Q. cbn [Nat.sub repeat]. rewrite app_nil_r. reflexivity.
  Qed.
  Lemma last_back zs : last_boco (List.map zone_back zs) = last_boco zs.
  Proof.
    rewrite !last_boco_end. f_equal. rewrite !flat_map_concat_map, map_map. f_equal. apply map_ext. intros (k, b). reflexivity.
  Qed.
  Lemma dset_all_typed (l : list (string * sval)) : forall d, Forall (fun '((_, v) : string * sval) => sval_typed v) d -> Forall (fun '((_, v) : string * sval) => sval_typed v) l ->
    Forall (fun '((_, v) : string * sval) => sval_typed v) (dset_all d l).
  Proof.
    induction l as [| (k, x) l IH]; intros d D L; [exact D |]. apply Forall_cons_iff in L. destruct L as (X & L). apply (IH (dset String.eqb k x d)); [| exact L].
    apply Forall_forall. intros (k', x') I. apply in_dset in I. destruct I as [(_ & ->) | I]; [exact X |]. rewrite Forall_forall in D. exact (D (k', x') I).
  Qed.

  Lemma first_read v o fm ls rows w f : (forall n, pattern (i2d n)) -> writable f2i v fm ls rows -> located fm ls ->
    writer_state fm = Ok w -> write_data i2d f2i v o w = Ok f ->
    exists fm1 cv no x y z con zs n lc ln, (forall integrity, read_mesh integrity f = Ok fm1) /\ shaped v fm1 ls rows cv no x y z con zs n lc ln /\
      writable f2i v fm1 ls rows /\ located fm1 ls.
  Proof.
    intros PT WR LOC W WD. assert (M := wr_file _ _ _ _ _ WR). assert (T := wr_typed _ _ _ _ _ WR).
    destruct (writer_state_ok fm w W) as (x0 & y0 & z0 & zf & f2e & NC0 & ST0 & LC & WF & E1 & E2 & E3 & E4 & E5 & E6 & E7 & E8 & E9 & E10 & E11 & E12 & E13 & E14).
    assert (LOC' : fd_items (w_cells w) = [] \/ (w_cv w <> w_no w /\ w_cv w <> w_fa w)).
    { rewrite E14, E3, E1, E2, (fi_nface _ _ _ _ M). exact LOC. }
    destruct (read_mesh_back i2d f2i v o fm ls rows w f PT T M) as (x & y & z & con & mt & c & NC & IC & CW & CB & CP & MR & FE & SZ & ST & RM); [destruct LOC'; auto | exact W | exact WD |].
    clear x0 y0 z0 NC0 ST0 zf f2e WF E4 E5 E6.
    assert (FN := fi_names _ _ _ _ M). unfold mesh_names in FN. rewrite !Forall_app in FN. destruct FN as (G1 & G2 & G3 & G4).
    destruct (fi_keys _ _ _ _ M) as (K1 & K2 & K3).
    destruct T as (FA & CV & TX & TB & TP & TN & TC & NDOF).
    assert (ND1 : 1 <= w_ndof w). { unfold w_ndof. rewrite E14. apply M. }
    assert (TOT : w_tot v w = cell_total v fm). { unfold w_tot, cell_total, w_ndof, data_ndof. rewrite E14, E3. reflexivity. }
    assert (CV1 : 1 <= w_cv w) by (rewrite E3; apply M). assert (NO1 : 1 <= w_no w) by (rewrite E1; apply M).
    assert (TOT1 : 1 <= w_tot v w). { unfold w_tot. destruct v; [exact CV1 |]. replace 1 with (1 * 1) by reflexivity. apply Z.mul_le_mono_nonneg; lia. }
    assert (EV := exp_vars_eq i2d v w ND1).
    set (lc := cell_list i2d v w (fd_items (fm_cells fm))). set (ln := scals i2d v (fd_items (fm_nodes fm))). set (zs := List.map zone_back (zone_marks (fm_mesh fm))).
    assert (KC : kept_data v (w_tot v w) lc). { apply cells_kept; try assumption. rewrite TOT. exact (wr_cdata _ _ _ _ _ WR). }
    destruct (nodes_kept v (fd_items (fm_nodes fm)) PT TN K2 G3 (w_no w)) as (KN & GN & UN); [rewrite E1; exact (wr_ndata _ _ _ _ _ WR) | exact NO1 |]. fold ln in KN, GN, UN.
    assert (CELLS : fst (exp_vars i2d v w) = adds (nd v w) lc cells0).
    { rewrite EV. cbn [fst]. unfold lc, cell_list. rewrite <- E14. destruct LOC' as [LE | (L1 & L2)].
      - rewrite LE. destruct ((w_cv w =? w_no w) || (w_cv w =? w_fa w)); reflexivity.
      - apply Z.eqb_neq in L1. apply Z.eqb_neq in L2. rewrite L1, L2. reflexivity. }
    assert (NODES : snd (exp_vars i2d v w) = adds 0 ln nodes0).
    { rewrite EV. cbn [snd]. unfold ln. rewrite E13. destruct LOC' as [LE | (L1 & _)].
      - rewrite LE. destruct (w_cv w =? w_no w); cbn [scals filter List.map]; rewrite app_nil_r; reflexivity.
      - apply Z.eqb_neq in L1. rewrite L1, app_nil_r. reflexivity. }
    assert (ND : 1 <= nd v w /\ (v = V2 -> nd v w = 1) /\ (v = V3 -> nd v w = w_ndof w)).
    { unfold nd, ndof_num. destruct v; cbn [version_number].
      - change (2 <? 3) with true. cbv iota. split; [lia |]. split; [reflexivity | discriminate].
      - change (3 <? 3) with false. cbv iota. replace (w_ndof w =? 0) with false by (symmetry; apply Z.eqb_neq; lia). split; [exact ND1 |]. split; [discriminate | reflexivity]. }
    destruct ND as (ND & ND2 & ND3).
    assert (MC := wr_marks _ _ _ _ _ WR).
    assert (Z1 : List.map (fun b => (mk_name b, b)) (List.map mark_back (w_bocos w) ++ [int_mark (last_boco (w_bocos w) + 1) (w_fa w - 1)]) =
                 zs ++ [("internal-domain"%string, int_mark (last_boco zs + 1) (zlen ls - 1))]).
    { rewrite map_app. f_equal.
      - unfold zs. rewrite map_map, E7. apply map_ext_in. intros (k, b) I. unfold mark_back, zone_back. cbn [fst snd mk_name].
        rewrite Forall_forall in G1. rewrite good_cut; [reflexivity |]. apply G1. apply in_map_iff. exists (k, b). auto.
      - unfold zs. rewrite last_back, E7, E2, (fi_nface _ _ _ _ M). reflexivity. }
    assert (Z2 : List.map zone_back zs = zs).
    { unfold zs. rewrite map_map. apply map_ext_in. intros (k, b) I. apply zone_back_twice. cbn [snd]. destruct (MC k b I) as (_ & _ & _ & _ & P). exact P. }
    assert (Z3 : Forall (fun '((_, b) : string * mark Z) => mk_type b <> Some "internal"%string /\ exists lo hi, mk_index b = Some (ILrange lo hi)) zs).
    { unfold zs. apply Forall_forall. intros (k, b) I. apply in_map_iff in I. destruct I as ((k0, b0) & E & I). unfold zone_back in E. injection E as <- <-. cbn [mk_type mk_index fst snd].
      destruct (MC k0 b0 I) as (_ & _ & _ & (lo & hi & IX & _) & _). split; [| eauto]. unfold zone_marks in I. apply filter_In in I. destruct I as (_ & I).
      intros Q. rewrite Q in I. discriminate I. }
    assert (GW : Forall good_name (wgt_names (w_wgt w))).
    { rewrite E12. eapply Forall_impl; [| exact G2]. intros k (G & _). exact G. }
    destruct (sim_get i2d f2i w c (params_of (expected i2d f2i Little v ls c)) GW) as (I1 & I2 & I3 & I4).
    assert (PEQ := c_part_ok _ _ _ c).
    exists (mesh_back i2d f2i v x y z ls con mt c), (w_cv w), (w_no w), x, y, z, con, zs, (nd v w), lc, ln. split; [exact RM |].
    assert (SH : shaped v (mesh_back i2d f2i v x y z ls con mt c) ls rows (w_cv w) (w_no w) x y z con zs (nd v w) lc ln).
    { constructor; unfold mesh_back; cbn [fm_mesh fm_cells fm_nodes fm_params fm_part]; try assumption.
      - rewrite Z1, MR. reflexivity.
      - eauto.
      - split; [rewrite CELLS; reflexivity |]. split; [exact ND |]. split; [exact ND2 |]. rewrite nd_tot by exact ND1. exact KC.
      - split; [rewrite NODES; reflexivity |]. auto.
      - eauto.
      - eauto.
      - eauto. }
    split; [exact SH |].
    assert (ZM := shaped_zones _ _ _ _ _ _ _ _ _ _ _ _ _ _ SH).
    assert (CI : fd_items (fm_cells (mesh_back i2d f2i v x y z ls con mt c)) = lc).
    { unfold mesh_back. cbn [fm_cells fd_items]. rewrite CELLS, adds_data. apply dset_all_same. exact (kd_keys _ _ _ KC). }
    assert (NI : fd_items (fm_nodes (mesh_back i2d f2i v x y z ls con mt c)) = ln).
    { unfold mesh_back. cbn [fm_nodes fd_items]. rewrite NODES, adds_data. apply dset_all_same. exact UN. }
    assert (DN : data_ndof (fm_cells (mesh_back i2d f2i v x y z ls con mt c)) = match lc with [] => 1 | _ => nd v w end).
    { unfold mesh_back. cbn [fm_cells data_ndof]. rewrite CELLS. apply adds_ndof. exact ND. }
    assert (CT : cell_total v (mesh_back i2d f2i v x y z ls con mt c) = match lc with [] => w_cv w | _ => w_tot v w end).
    { unfold cell_total. rewrite DN. unfold mesh_back. cbn [fm_mesh me_ncell]. unfold w_tot. destruct v; destruct lc; try reflexivity; [lia |].
      rewrite (ND3 eq_refl). reflexivity. }
    assert (LF : located (mesh_back i2d f2i v x y z ls con mt c) ls).
    { unfold located. rewrite CI. unfold mesh_back. cbn [fm_mesh me_ncell me_nnode]. rewrite E3, E1. destruct LOC as [L | L]; [left; unfold lc; rewrite L; reflexivity | right; exact L]. }
    split; [| exact LF].
    assert (FS : faces_set (FaceSet con (Some (Some (Mat (Some 2%nat) rows)))) ls rows).
    { constructor; cbn [f_f2n f_f2c]; [exact CW | exact CP |]. eexists. split; [reflexivity |]. split; [reflexivity |]. split; [reflexivity |].
      destruct (fi_faces _ _ _ _ M) as [fx _ S _ | nn b i lb li rb ri _ _ _ SB SI _ _ _ _ -> ->].
      + destruct (fs_cells _ _ _ S) as (_ & _ & _ & _ & Q). exact Q.
      + destruct (fs_cells _ _ _ SB) as (_ & _ & _ & _ & Q1). destruct (fs_cells _ _ _ SI) as (_ & _ & _ & _ & Q2). rewrite !zlen_app. lia. }
    assert (ZK : List.map fst zs = List.map fst (zone_marks (fm_mesh fm))) by (unfold zs; rewrite map_map; apply map_ext; intros (k, b); reflexivity).
    assert (WG : param (fm_params (mesh_back i2d f2i v x y z ls con mt c)) "wgt" (SWgt []) = SWgt []) by (unfold mesh_back, param; cbn [fm_params]; rewrite I4; reflexivity).
    assert (ZIN : forall k b, In (k, b) zs -> exists b0, In (k, b0) (zone_marks (fm_mesh fm)) /\ b = snd (zone_back (k, b0))).
    { intros k b I. unfold zs in I. apply in_map_iff in I. destruct I as ((k0, b0) & E & I). exists b0. unfold zone_back in E |- *. injection E as <- <-. auto. }
    destruct (wr_coords _ _ _ _ _ WR) as (x2 & y2 & z2 & NC2 & LX & LY & LZ). rewrite NC in NC2. injection NC2 as <- <- <-.
    apply make_writable.
    - apply make_file_mesh; rewrite ?ZM, ?CI, ?NI; try (unfold mesh_back; cbn [fm_mesh me_ncell me_nnode me_nface]; first [exact CV1 | exact NO1 | reflexivity]).
      + apply M.
      + eapply faces_mixed; [unfold mesh_back; cbn [fm_mesh me_faces]; rewrite MR; reflexivity | exact FS | right; exact CB].
      + apply M.
      + apply M.
      + unfold mesh_back. cbn [fm_mesh me_ncell]. rewrite E3. apply M.
      + unfold mesh_back. cbn [fm_mesh me_ncell]. rewrite E3. apply M.
      + intros k b lo hi I IX. destruct (ZIN k b I) as (b0 & I0 & ->). apply (fi_zones _ _ _ _ M k b0 lo hi I0). exact IX.
      + unfold mesh_names. rewrite ZM, CI, NI, WG, ZK. cbn [wgt_names List.map]. rewrite !Forall_app. split; [exact G1 |]. split; [constructor |]. split; [exact GN | exact (kd_names _ _ _ KC)].
      + rewrite ZK. split; [exact K1 |]. split; [exact UN | exact (kd_keys _ _ _ KC)].
      + rewrite ZK. apply M.
      + rewrite DN. destruct lc; [lia | exact ND].
    - unfold fmesh_typed. rewrite CI, NI. unfold mesh_back. cbn [fm_mesh fm_params fm_cells me_nface me_ncell me_nodes me_bocos].
      split; [unfold zlen; lia |]. split; [lia |]. split; [| split; [| split; [| split; [| split]]]].
      + unfold nodescoord in NC. apply bind_ok in NC. destruct NC as (x' & X & NC). apply bind_ok in NC. destruct NC as (y' & Y & NC). apply bind_ok in NC. destruct NC as (z' & ZZ & NC).
        apply ok_inj in NC. injection NC as -> -> ->. rewrite Forall_forall in TX.
        assert (GET : forall k l, dget_err String.eqb k (me_nodes (fm_mesh fm)) = Ok l -> Forall pattern l).
        { intros k l E. unfold dget_err in E. destruct (dget String.eqb k (me_nodes (fm_mesh fm))) as [l' |] eqn:Q; [| discriminate]. apply ok_inj in E. subst l'. apply dget_in in Q. exact (TX (k, l) Q). }
        repeat (apply Forall_cons; [eapply GET; eassumption |]). apply Forall_nil.
      + rewrite Z1. apply Forall_app. split.
        * apply Forall_forall. intros (k, b) I. destruct (ZIN k b I) as (b0 & I0 & ->). unfold zone_back, mark_typed. cbn [fst snd mk_perio].
          apply Forall_app. assert (P0 : pattern 0) by (unfold pattern; lia). split.
          -- unfold zone_marks in I0. apply filter_In in I0. destruct I0 as (I0 & _). rewrite Forall_forall in TB. specialize (TB (k, b0) I0). cbn beta iota in TB. unfold mark_typed in TB.
             destruct (mk_perio b0) as [[l |] |]; [exact TB | constructor | constructor].
          -- apply Forall_forall. intros q Q. apply repeat_spec in Q. subst q. exact P0.
        * apply Forall_cons; [| apply Forall_nil]. unfold int_mark, mark_typed. cbn [mk_perio]. apply Forall_forall. intros q Q. apply repeat_spec in Q. subst q. unfold pattern. lia.
      + change (dupdate (params_of (expected i2d f2i Little v ls c)) (exp_sim i2d f2i c)) with (dset_all (params_of (expected i2d f2i Little v ls c)) (exp_sim i2d f2i c)).
        apply dset_all_typed; [unfold params_of; repeat (apply Forall_cons; [exact I |]); apply Forall_nil |]. rewrite exp_sim_eq. apply dset_all_typed.
        * apply Forall_cons; [exact I |]. apply Forall_cons; [apply (double_pattern (w_dt w)); [exact PT | rewrite E10; apply param_typed; [exact TP | exact I] | apply c] |].
          apply Forall_cons; [apply (double_pattern (w_time w)); [exact PT | rewrite E11; apply param_typed; [exact TP | exact I] | apply c] |]. apply Forall_cons; [constructor | apply Forall_nil].
        * destruct (c_wgt_ok _ _ _ c) as (dw & EW & F2). assert (TW : sval_typed (SWgt dw)) by (rewrite <- EW, E12; apply param_typed; [exact TP | constructor]). cbn [sval_typed] in TW.
          clear -F2 TW PT. induction F2 as [| (k1, a1) (k2, a2) l l' (-> & H) F2 IH]; [constructor |]. apply Forall_cons_iff in TW. destruct TW as (T1 & TW). cbn [List.map]. apply Forall_cons; [| exact (IH TW)].
          cbn [sval_typed num_typed]. exact (double_pattern (SNum a1) a2 PT T1 H).
      + unfold data_typed. apply Forall_forall. intros (k, a) I. rewrite Forall_forall in KN. destruct (KN (k, a) I) as (S & L & _ & P). split; [unfold a_wf; cbn [snd] in *; rewrite S, L; cbn; lia | exact P].
      + destruct (kd_split _ _ _ KC) as (ss & vs & ts & E & FS1 & FS2 & FS3). rewrite E. unfold data_typed. apply Forall_app. split; [apply Forall_app; split |]; apply Forall_forall; intros (k, a) I.
        * rewrite Forall_forall in FS1. destruct (FS1 (k, a) I) as (S & L & _ & P). split; [unfold a_wf; cbn [snd] in *; rewrite S, L; cbn; lia | exact P].
        * rewrite Forall_forall in FS2. destruct (FS2 (k, a) I) as (S & L & _ & P). split; [unfold a_wf; cbn [snd] in *; rewrite S, L; cbn; lia | intros _; exact P].
        * rewrite Forall_forall in FS3. destruct (FS3 (k, a) I) as (S & L & _ & P). split; [unfold a_wf; cbn [snd] in *; rewrite S, L; cbn; lia | intros _; exact P].
      + rewrite CELLS, adds_ndof by exact ND. destruct lc; lia.
    - exists x, y, z. unfold mesh_back. cbn [fm_mesh me_nnode]. split; [reflexivity |]. rewrite E1. auto.
    - destruct (wr_counts _ _ _ _ _ WR) as (C1 & C2 & C3 & C4). rewrite CT. unfold mesh_back. cbn [fm_mesh me_nnode me_ncell]. rewrite E1, E3. split; [exact C1 |]. split; [exact C2 |]. split; [exact C3 |].
      destruct lc; [eapply Z.lt_trans; [exact C3 | vm_compute; reflexivity] | rewrite TOT; exact C4].
    - apply WR.
    - apply WR.
    - intros k b I. rewrite ZM in I. destruct (ZIN k b I) as (b0 & I0 & ->). destruct (MC k b0 I0) as (A1 & A2 & A3 & A4 & A5). unfold mark_complete, zone_back. cbn [fst snd mk_name mk_geodim mk_type mk_index mk_perio].
      split; [reflexivity |]. split; [left; reflexivity |]. split; [exact A3 |]. split; [exact A4 |].
      unfold zlen. rewrite app_length, repeat_length. destruct (mk_perio b0) as [[l |] |]; unfold zlen in A5; cbn [List.length]; lia.
    - unfold mesh_back. cbn [fm_part fm_mesh me_ncell]. exists (c_npart c), (c_icv c). split; [reflexivity |]. rewrite E8 in PEQ. assert (WP := wr_part _ _ _ _ _ WR). rewrite E3.
      destruct (fm_part fm) as [p |].
      + destruct WP as (n & l & -> & B1 & B2 & B3). injection PEQ as <- <-. auto.
      + injection PEQ as <- <-. split; [split; vm_compute; congruence |]. split; [unfold zlen; rewrite repeat_length; lia |]. apply Forall_forall. intros q Q. apply repeat_spec in Q. subst q. split; vm_compute; congruence.
    - exists (c_step c). unfold mesh_back, param. cbn [fm_params]. rewrite I1. split; [reflexivity | apply c].
    - unfold mesh_back, param. cbn [fm_params]. rewrite I2. eauto.
    - unfold mesh_back, param. cbn [fm_params]. rewrite I3. eauto.
    - exists []. exact WG.
    - rewrite NI. unfold mesh_back. cbn [fm_mesh me_nnode]. unfold data_complete. apply Forall_forall. intros (k, a) I. rewrite Forall_forall in KN. destruct (KN (k, a) I) as (S & _ & J & _).
      split; [left; exact S | intros Q; apply J; exact Q].
    - rewrite CI. assert (CE : cell_total v (mesh_back i2d f2i v x y z ls con mt c) = w_tot v w \/ lc = []) by (rewrite CT; destruct lc; auto).
      destruct CE as [-> | ->]; [| constructor]. destruct (kd_split _ _ _ KC) as (ss & vs & ts & E & FS1 & FS2 & FS3). rewrite E. unfold data_complete. apply Forall_app. split; [apply Forall_app; split |]; apply Forall_forall; intros (k, a) I.
      * rewrite Forall_forall in FS1. destruct (FS1 (k, a) I) as (S & _ & J & _). split; [left; exact S | intros Q; apply J; exact Q].
      * rewrite Forall_forall in FS2. destruct (FS2 (k, a) I) as (S & _ & J & _). cbn [snd] in *. split; [right; left; exact S | intros Q; congruence].
      * rewrite Forall_forall in FS3. destruct (FS3 (k, a) I) as (S & _ & J & _). cbn [snd] in *. split; [right; right; exact S | intros Q; congruence].
    - intros _. left. unfold mesh_back. cbn [fm_cells]. eauto.
  Qed.

  Theorem fixed_point tbl enum host v endian o fm m ls rows : (forall n, pattern (i2d n)) -> order_of host endian = Ok o ->
    prepare_mesh tbl enum (fm_mesh fm) = (Ok tt, m) ->
    let fm' := FM m (fm_cells fm) (fm_nodes fm) (fm_params fm) (fm_part fm) in
    writable f2i v fm' ls rows -> located fm' ls ->
    exists f fm1 g fm2, write_mesh tbl enum i2d f2i host v endian fm = (Ok f, fm') /\ (forall integrity, read_mesh integrity f = Ok fm1) /\
      write_mesh tbl enum i2d f2i host v endian fm1 = (Ok g, fm1) /\ (forall integrity, read_mesh integrity g = Ok fm2) /\
      write_mesh tbl enum i2d f2i host v endian fm2 = (Ok g, fm2).
  Proof.
    intros PT OO PM fm' WR LOC. destruct (writer_state_total i2d f2i v fm' ls rows WR) as (w & W). destruct (state_written i2d f2i v o fm' ls rows w WR W) as (f & WD).
    destruct (first_read v o fm' ls rows w f PT WR LOC W WD) as (fm1 & cv & no & x & y & z & con & zs & n & lc & ln & RD & SH & WR1 & LOC1).
    destruct (writer_state_total i2d f2i v fm1 ls rows WR1) as (w1 & W1). destruct (state_written i2d f2i v o fm1 ls rows w1 WR1 W1) as (g & WD1).
    destruct (shaped_again v o fm1 ls rows cv no x y z con zs n lc ln w1 g PT SH WR1 LOC1 W1 WD1) as (fm2 & RD2 & MS & W2).
    exists f, fm1, g, fm2. split; [| split; [exact RD | split; [| split; [exact RD2 |]]]].
    - unfold write_mesh. rewrite OO, PM. fold fm'. cbn [bind]. rewrite W. cbn [bind]. rewrite WD. reflexivity.
    - unfold write_mesh. rewrite OO, (shaped_prepare _ _ _ _ _ _ _ _ _ _ _ _ _ _ tbl enum SH). cbn [bind].
      replace (FM (fm_mesh fm1) (fm_cells fm1) (fm_nodes fm1) (fm_params fm1) (fm_part fm1)) with fm1 by (destruct fm1; reflexivity). rewrite W1. cbn [bind]. rewrite WD1. reflexivity.
    - unfold write_mesh. rewrite OO, MS, (shaped_prepare _ _ _ _ _ _ _ _ _ _ _ _ _ _ tbl enum SH), <- MS. cbn [bind].
      replace (FM (fm_mesh fm2) (fm_cells fm2) (fm_nodes fm2) (fm_params fm2) (fm_part fm2)) with fm2 by (destruct fm2; reflexivity). rewrite W2. cbn [bind]. rewrite WD1. reflexivity.
  Qed.
End Fix.
