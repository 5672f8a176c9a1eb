(** * Proofs about [vtkpack] as a whole program. *)
From Coq Require Import ZArith List Bool String Lia Permutation.
From Verif Require Import Py PyFacts Elements Mesh Vtk VtkSpec VtkProofs VtkMeshProps Files FilesSpec FilesProofs FilesProps VtkConvProps Gmsh GmshSpec GroupFacts GmshProofs VtkWholeSpec VtkWholeProofs.
From Verif Require Import VtkList VtkListProps Hdf5 Hdf5Spec Hdf5Proofs Hdf5Props VtkPack VtkPackProps CmdLine CmdLineSpec CmdLineProofs PackWhole PackWholeSpec.
Local Open Scope Z_scope.

Lemma view_get {C N} (seen : C -> N) (fs : files C) s : dget String.eqb s (view seen fs) = option_map seen (dget String.eqb s fs).
Proof. unfold view. induction fs as [| (k, c) fs IH]; [reflexivity |]. cbn [List.map dget fst snd]. destruct (String.eqb s k); [reflexivity | exact IH]. Qed.
Lemma view_keys {C N} (seen : C -> N) (fs : files C) : dkeys (view seen fs) = dkeys fs.
Proof. unfold view, dkeys. rewrite map_map. reflexivity. Qed.

Lemma naming_parse ints floats names argv : naming names argv -> pack_files ints floats argv = Done names.
Proof. intros (NE & [(-> & P) | ->]); [apply pack_plain; assumption | apply pack_dashes; exact NE]. Qed.

(** ** Cells listed type by type *)
Lemma filter_flat {A B} (p : B -> bool) (f : A -> list B) l : filter p (flat_map f l) = flat_map (fun a => filter p (f a)) l.
Proof. induction l as [| a l IH]; [reflexivity |]. cbn [flat_map]. rewrite filter_app, IH. reflexivity. Qed.
Lemma filter_filter {A} (p q : A -> bool) l : filter p (filter q l) = filter (fun a => p a && q a) l.
Proof. induction l as [| a l IH]; [reflexivity |]. cbn [filter]. destruct (q a); cbn [filter]; rewrite IH; destruct (p a); reflexivity. Qed.

Lemma codes_once t t' c : In (t, c) vtktype_ele -> In (t', c) vtktype_ele -> t = t'.
Proof.
  cbn [vtktype_ele In]. intros H H'. repeat match goal with X : _ \/ _ |- _ => destruct X as [X | X] end; try contradiction; congruence.
Qed.
Lemma names_once t c c' : In (t, c) vtktype_ele -> In (t, c') vtktype_ele -> c = c'.
Proof.
  cbn [vtktype_ele In]. intros H H'. repeat match goal with X : _ \/ _ |- _ => destruct X as [X | X] end; try contradiction; congruence.
Qed.

Definition same_elt (tr : string * list Z) (cell : Z * list Z) : Prop := In (fst tr, fst cell) vtktype_ele /\ snd cell = snd tr.
Lemma same_filter l cs t code : Forall2 same_elt l cs -> In (t, code) vtktype_ele ->
  List.map snd (filter (fun c => fst c =? code) cs) = List.map snd (filter (fun e => String.eqb (fst e) t) l).
Proof.
  intros H K. induction H as [| tr cell l cs (I & E) _ IH]; [reflexivity |]. cbn [filter].
  destruct (Z.eqb_spec (fst cell) code) as [Q | Q], (String.eqb_spec (fst tr) t) as [R | R]; cbn [List.map]; try (rewrite IH); try congruence.
  - exfalso. apply R. rewrite Q in I. exact (codes_once _ _ _ I K).
  - exfalso. apply Q. rewrite R in I. exact (names_once _ _ _ I K).
Qed.

(** ** Files with the same grid and no data *)
Section Same.
  Context {F P D V T : Type} (mdist kdist : P -> P -> D) (dle : D -> D -> bool)
          (nearest : list P -> P -> Z) (truth : T -> bool) (tol : D) (centers : grid (list F) -> list P).
  Hypothesis near_self : forall p, dle (mdist p p) tol = true.
  Notation pack := (vtkpack (V := V) mdist kdist dle nearest truth tol centers).
  Notation fsys := (files (node F V T)).

  Lemma max_self (ref : list P) : ref <> [] -> exists d, distances mdist ref ref = Ok (List.map (fun p => mdist p p) ref) /\ np_max dle (List.map (fun p => mdist p p) ref) = Ok d /\ dgt dle d tol = false.
  Proof.
    intros NE. assert (E : distances mdist ref ref = Ok (List.map (fun p => mdist p p) ref)).
    { unfold distances. rewrite Z.eqb_refl. f_equal. induction ref as [| p r IH]; [congruence |]. cbn [combine List.map fst snd]. f_equal. destruct r; [reflexivity | apply IH; discriminate]. }
    destruct ref as [| p r]; [congruence |]. cbn [List.map np_max] in *. eexists. split; [exact E |]. split; [reflexivity |].
    unfold dgt. rewrite negb_false_iff. assert (G : forall (l : list P) x, dle x tol = true -> dle (fold_left (dmax2 dle) (List.map (fun p => mdist p p) l) x) tol = true).
    { induction l as [| q l IH]; intros x X; [exact X |]. cbn [List.map fold_left]. apply IH. unfold dmax2. destruct (dle x (mdist q q)); [apply near_self | exact X]. }
    apply G. apply near_self.
  Qed.
  Lemma read_self (g : grid (list F)) : centers g <> [] ->
    read_file mdist kdist dle nearest truth (centers g) [] tol (vfile_of (V := V) centers (VtkC g [] None)) = Ok [].
  Proof.
    intros NE. destruct (max_self (centers g) NE) as (d & E1 & E2 & E3). unfold read_file. cbn [v_centers v_data v_time vfile_of vc_grid vc_data vc_time dkeys List.map].
    rewrite E1. cbn [bind]. rewrite E2. cbn [bind]. rewrite E3. reflexivity.
  Qed.

  Lemma pack_same ver names (fs : fsys) g cs : names <> [] -> (forall n, In n names -> vtk_at fs n (VtkC g [] None)) -> centers g <> [] ->
    grid_of g cs -> Forall known_cell cs -> vertices_ok g cs -> cs <> [] -> Forall (fun p => List.length p = 3%nat) (g_points g) ->
    exists name h g' cs', pack (List.length fs + 1) ver names fs = (Ok name, dset String.eqb name (NH5 h) fs) /\ ~ In name (dkeys fs) /\
      open_old h = (Some (AStr "datalist"), Some (AStr ver), Some (AInt 1)) /\
      importhdfgroup h ["mesh"%string] = Ok g' /\ grid_of g' cs' /\ g_points g' = g_points g /\ cs' = by_types imported_order cs /\
      forall t, filter (fun c => fst c =? t) cs' = filter (fun c => fst c =? t) cs.
  Proof.
    intros NE Hall Hne Hg Hk Hv Hcs Hp. destruct names as [| n0 names]; [congruence |].
    set (dls := List.map (fun _ : string => [] : dict string (dval V T)) (n0 :: names)).
    assert (Hread : pack_read mdist kdist dle nearest truth tol centers fs (n0 :: names) = Ok (g, dls)).
    { unfold pack_read. replace (pvread fs n0) with (@Ok (vtkc F V T) (VtkC g [] None)) by (unfold pvread; rewrite (Hall n0 (or_introl eq_refl)); reflexivity). cbn [bind vc_grid].
      assert (X : forall l, (forall n, In n l -> vtk_at fs n (VtkC g [] None)) ->
        mapM (fun name => c <- pvread fs name ;; read_file mdist kdist dle nearest truth (centers g) [] tol (vfile_of centers c)) l = Ok (List.map (fun _ => []) l)).
      { induction l as [| n l IH]; intros H; [reflexivity |]. cbn [mapM List.map]. unfold pvread at 1. rewrite (H n (or_introl eq_refl)). cbn [bind]. rewrite (read_self g Hne). cbn [bind].
        rewrite IH by (intros m Hm; apply H; right; exact Hm). reflexivity. }
      rewrite X by exact Hall. reflexivity. }
    assert (Hgood : Forall (@good_entries (hval V T)) (List.map stored_set dls)).
    { unfold dls. rewrite map_map. apply Forall_forall. intros d Hd. apply in_map_iff in Hd. destruct Hd as (n & <- & _). split; [constructor |]. intros m []. }
    destruct (C62_list F (hval V T) ver "dumped.h5" g cs (List.map stored_set dls) Hg Hk Hv Hcs Hp Hgood) as (h & x & E & Ho & _ & _ & g' & cs' & Ei & Hg' & Hpts & Hby & Hf).
    unfold list_dumphdf in E. apply bind_ok in E. destruct E as (m & Em & E). apply bind_ok in E. destruct E as (h' & Eh & E). injection E as -> _.
    destruct (pack (List.length fs + 1) ver (n0 :: names) fs) as (r, fs') eqn:Epack. assert (Hsafe := C83_safe mdist kdist dle nearest truth tol centers _ _ _ _ _ _ (le_n _) Epack).
    assert (Epk : pack_dump (List.length fs + 1) ver "dumped.h5" fs g dls = (r, fs')).
    { rewrite <- Epack. unfold vtkpack. rewrite allexist_ok by (intros nm Hn; exact (vtk_at_in _ _ _ (Hall nm Hn))). rewrite Hread. reflexivity. }
    unfold pack_dump in Epk. rewrite Em, Eh in Epk. destruct (find_safe_newfile (List.length fs + 1) (fexists fs) (path_of "dumped.h5")) as [[q b] | e] eqn:Es.
    - injection Epk as <- <-. exists (path_str q), h, g', cs'. split; [reflexivity |]. split; [| auto 10].
      destruct Hsafe as [(_ & e & He) | (name & x0 & Hno & _ & [(h0 & _ & Hr) | (_ & e & He)] & _)]; try discriminate. injection Hr as ->. exact Hno.
    - exfalso. destruct (C45_safe_name (fexists fs) (dkeys fs) (List.length fs + 1) (path_of "dumped.h5") (Path_ "" []) "dumped.h5" "dumped" ".h5") as (q & ch & E & _).
      + split; [left; reflexivity |]. constructor; [| constructor]. split; [discriminate |]. split; [discriminate | nochars].
      + left. split; reflexivity.
      + left. split; [reflexivity |]. split; [| discriminate]. exists "h5"%string. split; [reflexivity |]. split; [discriminate | nochars].
      + intros s Hs. apply (dmem_in _ seqb_eq). exact Hs.
      + unfold dkeys. rewrite List.map_length. lia.
      + congruence.
  Qed.
End Same.

(** ** The elements of a Gmsh file as cells *)
Lemma having_filter (l : list felt) t : filter (fun e => String.eqb (felt_name e) t) (flat_map (fun u => having String.eqb felt_name u l) (first_seen String.eqb (List.map felt_name l))) =
  filter (fun e => String.eqb (felt_name e) t) l.
Proof.
  rewrite filter_flat. assert (ND := first_seen_NoDup String.eqb seqb_eq (List.map felt_name l)). assert (IN : forall e, In e l -> In (felt_name e) (first_seen String.eqb (List.map felt_name l))).
  { intros e I. apply (first_seen_in String.eqb seqb_eq). now apply in_map. }
  assert (OTHER : forall ks, ~ In t ks -> flat_map (fun u => filter (fun e => String.eqb (felt_name e) t) (having String.eqb felt_name u l)) ks = []).
  { induction ks as [| k ks IH]; intros N; [reflexivity |]. cbn [flat_map]. rewrite IH by (intros X; apply N; right; exact X). rewrite app_nil_r. unfold having. rewrite filter_filter.
    assert (K : k <> t) by (intros ->; apply N; left; reflexivity). clear - K. induction l as [| e l IH]; [reflexivity |]. cbn [filter]. rewrite IH.
    destruct (String.eqb_spec (felt_name e) t), (String.eqb_spec (felt_name e) k); try reflexivity. congruence. }
  destruct (in_dec string_dec t (first_seen String.eqb (List.map felt_name l))) as [I | N].
  - apply in_split in I. destruct I as (k1 & k2 & E). rewrite E in ND |- *. apply NoDup_remove_2 in ND. rewrite flat_map_app. cbn [flat_map].
    rewrite !OTHER by (intros X; apply ND; apply in_app_iff; auto). cbn [app]. rewrite app_nil_r. unfold having. rewrite filter_filter. apply filter_ext. intros e. destruct (String.eqb (felt_name e) t); reflexivity.
  - rewrite OTHER by exact N. symmetry. clear - N IN. induction l as [| e l IH]; [reflexivity |]. cbn [filter].
    assert (X : forall a, In a (e :: l) -> felt_name a <> t) by (intros a A Q; apply N; rewrite <- Q; apply IN; exact A). clear - X.
    destruct (String.eqb_spec (felt_name e) t) as [Q | _]; [destruct (X e (or_introl eq_refl) Q) |]. induction l as [| b l IH]; [reflexivity |]. cbn [filter].
    destruct (String.eqb_spec (felt_name b) t) as [Q | _]; [destruct (X b (or_intror (or_introl eq_refl)) Q) |]. apply IH. intros a [<- | A]; apply X; cbn; auto.
Qed.
Lemma having_length (l : list felt) : List.length (flat_map (fun u => having String.eqb felt_name u l) (first_seen String.eqb (List.map felt_name l))) = List.length l.
Proof. apply Permutation_length. apply (first_seen_perm String.eqb seqb_eq). Qed.

Lemma gmsh_known l cs : Forall felt_ok l -> Forall2 same_elt (by_type l) cs -> Forall known_cell cs.
Proof.
  intros OK H. assert (K : forall tr, In tr (by_type l) -> exists e, felt_ok e /\ fst tr = felt_name e /\ snd tr = nodes0 e).
  { intros (t, r) I. apply by_type_in in I. destruct I as (e & I & -> & ->). exists e. rewrite Forall_forall in OK. auto. }
  clear OK. induction H as [| tr cell l' cs (I & E) _ IH]; [constructor |]. constructor; [| apply IH; intros x X; apply K; right; exact X].
  destruct (K tr (or_introl eq_refl)) as (e & OK & N & R). exists (fst tr). split; [exact I |]. rewrite E, R, N. unfold nodes0, zlen. rewrite map_length.
  destruct OK as (name & d & n & S & L). unfold felt_name. rewrite S, L. clear - S. destruct (fe_type e) as [| p | p]; cbn in S; try discriminate.
  do 4 (destruct p as [p | p |]; cbn in S; try discriminate; try (injection S as <- <- <-; reflexivity)).
Qed.
Lemma two_length {A B} (R : A -> B -> Prop) l m : Forall2 R l m -> List.length l = List.length m.
Proof. intros H. induction H; cbn; congruence. Qed.
Lemma gmsh_held l cs cs' : Forall2 same_elt (by_type l) cs -> (forall t, filter (fun c => fst c =? t) cs' = filter (fun c => fst c =? t) cs) -> holds_elements cs' l.
Proof.
  intros H FI. split.
  - assert (P := perm_of_filters cs cs' FI). apply Permutation_length in P. apply two_length in H. unfold by_type in H. rewrite map_length, having_length in H. unfold zlen. lia.
  - intros t code I. rewrite FI, (same_filter _ _ _ _ H I). unfold by_type. rewrite <- (having_filter l t). clear. induction (flat_map _ _) as [| e m IH]; [reflexivity |].
    cbn [List.map filter fst]. destruct (String.eqb (felt_name e) t); cbn [List.map snd]; rewrite ?IH; reflexivity.
Qed.
Lemma places_three mul s x y z : Forall (fun p => List.length p = 3%nat) (places mul s x y z).
Proof. unfold places. apply Forall_forall. intros p H. apply in_map_iff in H. destruct H as ((a, (b, c)) & <- & _). unfold place. destruct s as [((sx, sy), sz) |]; reflexivity. Qed.
